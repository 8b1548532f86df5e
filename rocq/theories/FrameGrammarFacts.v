(** Facts about the exact languages of frames, messages and streams. *)

From Coq Require Import String.
From Verif Require Import Io BaseFacts Utf8Spec Valid Wire PrimFacts DecLaws EncLaws VariantFacts TypeSpec TypeFacts CompositeSpec CompositeFacts
  AllTypes AllTypesFacts CodecSpec EqFacts CodecFacts CompositeReads MessageSpec MessageFacts FrameSpec FrameFacts FramingFacts StreamSpec StreamFacts
  ExactFacts GrammarSpec GrammarFacts FrameGrammarSpec.
Open Scope string_scope.
Open Scope list_scope.
Open Scope Z_scope.

(** ** Performatives *)
Definition perf_exact {T} (D : dspec T) (G : mode -> T -> bytes -> Prop) : Prop :=
  forall md inp rest v, bytes_ok inp ->
  (d_inner D md inp = Ok (rest, v) <-> exists bs, inp = bs ++ rest /\ G md v bs /\ (d_code D = 0x14 -> rest = [])).

Lemma transfer_perf F : field_grammar transfer_table F -> perf_exact transfer_D (fun md v bs => exists n hdr content junk payload,
      list_header md n (zlen (content ++ junk)) hdr /\ F md n (transfer_to v) content /\
      bs = hdr ++ content ++ junk ++ payload /\ transfer_body_f v = received_payload payload).
Proof.
  intros HF. destruct grammar_exact as (_ & X & _). specialize (X _ transfer_table F HF head_fields).
  intros md inp rest v Hb. cbn [d_inner d_code transfer_D]. rewrite transfer_inner_eq. unfold head_inner. split.
  - intros E. apply bind_ok in E as [[rem a] [E R]]. injection R as <- <-. apply bind_ok in E as [[[w n] rem'] [E1 E]].
    rewrite dec_fields_k_eq in E. apply bind_ok in E as [[[junk n'] a'] [E2 E3]]. injection E3 as -> ->.
    apply open_list_window in E1 as (hdr & -> & H); [|exact Hb]. cbn [fst snd] in *. exists (hdr ++ w ++ rem).
    rewrite app_nil_r. split; [reflexivity|]. split; [|reflexivity]. apply app_ok in Hb as [_ Hb]. apply app_ok in Hb as [Hb _].
    pose proof (list_header_count _ _ _ _ H).
    destruct (proj1 (X md n w junk a Hb ltac:(lia))) as (c & -> & Hc); [now exists n'|].
    exists n, hdr, c, junk, rem. rewrite transfer_to_of, transfer_body_of, <- app_assoc. easy.
  - intros (bs & -> & (n & hdr & content & junk & payload & H & HG & -> & P) & R). specialize (R eq_refl). subst rest. rewrite app_nil_r in *.
    replace (hdr ++ content ++ junk ++ payload) with (hdr ++ (content ++ junk) ++ payload) in * by now rewrite <- app_assoc.
    rewrite (open_list_any md n (content ++ junk) hdr payload H). cbn [bind].
    pose proof (list_header_count _ _ _ _ H). apply app_ok in Hb as [_ Hb]. apply app_ok in Hb as [Hb _].
    destruct (proj2 (X md n (content ++ junk) junk (transfer_to v) Hb ltac:(lia))) as (n' & E); [now exists content|].
    assert (E' : dec_fields_k transfer_table md (content ++ junk, n) (fun a => Ok (payload, a)) = Ok (payload, transfer_to v)).
    { rewrite dec_fields_k_eq. exact (bind_eq _ _ _ E). }
    etransitivity; [apply (bind_eq _ _ _ E')|]. cbn beta iota. rewrite <- P. now rewrite transfer_of_to.
Qed.
Lemma not_transfer_code K : In K all_composites -> k_code K <> 0x14.
Proof. intros H. unfold all_composites in H. repeat (destruct H as [<-|H]; [discriminate|]). destruct H. Qed.
Lemma perf_grammar_exact {T} (D : dspec T) G : performative_grammar D G -> perf_exact D G.
Proof.
  intros [K G' HK H|F H]; [|now apply transfer_perf]. destruct grammar_exact as (_ & _ & X & _). specialize (X _ _ G' H). destruct X as [L X].
  intros md inp rest v Hb. split.
  - intros E. destruct (L md inp rest v E) as [(p & -> & Hp) _]. apply app_ok in Hb as [Hb _]. exists p. split; [reflexivity|].
    split; [now apply X|]. intros C. now elim (not_transfer_code K HK).
  - intros (bs & -> & HG & _). apply app_ok in Hb as [Hb _]. now apply X.
Qed.
Lemma perfs_exact alts G : performatives_grammar alts G -> 
  Forall (fun a => exists GA, perf_exact (a_D a) GA /\ forall md f bs, (exists x label body, f = a_inj a x /\ wire_label (d_code (a_D a)) (d_name (a_D a)) label /\ GA md x body /\
         bs = 0x00 :: label ++ body) -> G md f bs) alts /\
  forall md f bs, G md f bs -> exists a GA x label body, In a alts /\ perf_exact (a_D a) GA /\ f = a_inj a x /\
    wire_label (d_code (a_D a)) (d_name (a_D a)) label /\ GA md x body /\ bs = 0x00 :: label ++ body.
Proof.
  induction 1 as [|a r GA GR HA HR [IH1 IH2]].
  - split; [constructor|easy].
  - apply perf_grammar_exact in HA. split.
    + constructor; [exists GA; split; [exact HA|intros md f bs H; now left]|]. eapply Forall_impl; [|exact IH1]. intros b (GB & H1 & H2).
      exists GB. split; [exact H1|]. intros md f bs H. right. now apply H2.
    + intros md f bs [(x & label & body & H1 & H2 & H3 & H4)|H].
      * exists a, GA, x, label, body. split; [now left|]. split; [exact HA|auto].
      * destruct (IH2 md f bs H) as (b & GB & x & label & body & H1 & H2). exists b, GB, x, label, body. split; [now right|exact H2].
Qed.
Lemma rest_code a x : In a frame_alts -> (takes_rest (a_inj a x) <-> d_code (a_D a) = 0x14).
Proof. unfold frame_alts. intros H. repeat (destruct H as [<-|H]; [cbn; now split|]). destruct H. Qed.
Lemma frame_language G : frame_grammar G -> forall md inp rest f, bytes_ok inp ->
  (frame_decode md inp = Ok (rest, f) <-> exists bs, inp = bs ++ rest /\ G md f bs /\ (takes_rest f -> rest = [])).
Proof.
  intros [G0 HG] md inp rest f Hb. destruct (perfs_exact _ _ HG) as [X1 X2]. rewrite Forall_forall in X1. split.
  - destruct inp as [|c r]. { intros [= <- <-]. exists []. repeat split. now right. }
    rewrite frame_decode_cons. unfold frame_dec. intros E. apply bind_ok in E as [[] [E1 E]]. apply bind_ok in E as [[i d] [E2 E]].
    unfold validate_code in E1. destruct (Z.eqb_spec c FC_DESCRIBED) as [->|]; [|discriminate]. inversion Hb as [|? ? _ Hr]; subst.
    apply select_inv in E as (a & x & Ha & L & -> & E). 
    destruct (descriptor_read md r i d Hr E2) as (label & -> & W).
    apply app_ok in Hr as [_ Hi]. destruct (X1 a Ha) as (GA & XA & HA). apply (XA md i rest x Hi) in E as (bs & -> & HB & R).
    exists (0x00 :: label ++ bs). split; [cbn [app]; now rewrite <- app_assoc|]. split.
    + left. apply HA. exists x, label, bs. repeat split; auto. now apply (label_wire _ d).
    + intros T. apply R. now apply (rest_code a x Ha).
  - intros (bs & -> & [H|[-> ->]] & R); [|now rewrite (R I)].
    destruct (X2 md f bs H) as (a & GA & x & label & body & Ha & XA & -> & W & HB & ->). cbn [app]. rewrite <- app_assoc.
    rewrite (frame_named md a label (body ++ rest) Ha W). inversion Hb as [|? ? _ Hr]; subst. rewrite <- app_assoc in Hr. apply app_ok in Hr as [_ Hr].
    assert (E : d_inner (a_D a) md (body ++ rest) = Ok (rest, x)).
    { apply (XA md _ rest x Hr). exists body. repeat split; auto. intros C. apply R. now apply (rest_code a x Ha). }
    now rewrite E.
Qed.

(** Each performative has a grammar; it is unique. *)
Definition has_perf {T} (D : dspec T) : Prop := exists G, performative_grammar D G.
Definition has_perfs (alts : list (alternative frame)) : Prop := exists G, performatives_grammar alts G.
Lemma has_perfs_nil : has_perfs []. Proof. eexists. exact pgs_nil. Qed.
Lemma has_perfs_cons a r : has_perf (a_D a) -> has_perfs r -> has_perfs (a :: r).
Proof. intros [GA HA] [GR HR]. eexists. exact (pgs_cons a r GA GR HA HR). Qed.
Lemma has_transfer : has_fields transfer_table. Proof. unfold transfer_table. has_f. Qed.
Lemma has_perf_composite K : In K all_composites -> has_fields (k_fields K) -> has_perf (composite_D K).
Proof. intros HK H. destruct (has_composite_body K HK H) as [G HG]. exists G. now apply pg_composite. Qed.
Lemma has_frame : exists G, frame_grammar G.
Proof.
  assert (H : has_perfs frame_alts).
  { unfold frame_alts. repeat apply has_perfs_cons; try exact has_perfs_nil; cbn [a_D].
    5: (destruct has_transfer as [F HF]; eexists; exact (pg_transfer F HF)).
    all: match goal with |- has_perf (composite_D ?K) => apply (has_perf_composite K); [listed|unfold K; cbn [k_fields]; has_f] end. }
  destruct H as [G H]. eexists. exact (fgr G H).
Qed.
Lemma frame_whole G : frame_grammar G -> forall md f bs, bytes_ok bs -> (G md f bs <-> frame_decode md bs = Ok ([], f)).
Proof.
  intros HG md f bs Hb. rewrite (frame_language G HG md bs [] f Hb). split.
  - intros H. exists bs. rewrite app_nil_r. auto.
  - intros (p & E & H & _). rewrite app_nil_r in E. now subst p.
Qed.
Lemma frame_unique G1 G2 : frame_grammar G1 -> frame_grammar G2 -> forall md f bs, bytes_ok bs -> (G1 md f bs <-> G2 md f bs).
Proof. intros H1 H2 md f bs Hb. now rewrite (frame_whole G1 H1), (frame_whole G2 H2). Qed.

(** ** Frames *)
Lemma amqp_language G : frame_grammar G -> forall md inp rest f, bytes_ok inp ->
  (amqp_frame_decode md inp = Ok (rest, f) <->
   exists bs, inp = bs ++ rest /\ amqp_grammar G md f bs /\ (takes_rest (af_performative f) -> rest = [])).
Proof.
  intros HG md inp rest f Hb. split.
  - unfold amqp_frame_decode. intros E. apply bind_ok in E as [[i ch] [E1 E]]. apply bind_ok in E as [[i2 p] [E2 E]]. injection E as -> <-.
    apply header_read in E1 as (ext & hdr & -> & W); [|exact Hb]. apply app_ok in Hb as [_ Hb].
    apply (frame_language G HG) in E2 as (bs & -> & H & R); [|exact Hb]. exists (hdr ++ bs). rewrite <- app_assoc. split; [reflexivity|].
    split; [|exact R]. now exists ext, hdr, bs.
  - intros (bs & -> & (ext & hdr & body & W & H & ->) & R). rewrite <- app_assoc in *. rewrite (amqp_extended md _ ext hdr _ W).
    apply app_ok in Hb as [_ Hb].
    assert (E : frame_decode md (body ++ rest) = Ok (rest, af_performative f)) by (apply (frame_language G HG); [exact Hb|now exists body]).
    rewrite E. destruct f. reflexivity.
Qed.
Lemma sasl_language G : grammar sasl_frame_body_S G -> forall md inp rest f, bytes_ok inp ->
  (sasl_frame_decode md inp = Ok (rest, f) <-> exists bs, inp = bs ++ rest /\ sasl_grammar G md f bs).
Proof.
  intros HG md inp rest f Hb. split.
  - unfold sasl_frame_decode. intros E. apply bind_ok in E as [[i ch] [E1 E]]. apply bind_ok in E as [[i2 p] [E2 E]]. injection E as -> <-.
    apply header_read in E1 as (ext & hdr & -> & W); [|exact Hb]. apply app_ok in Hb as [_ Hb].
    apply (grammar_decode sasl_frame_body_S G HG) in E2 as (bs & -> & H); [|exact Hb]. exists (hdr ++ bs). rewrite <- app_assoc. split; [reflexivity|].
    now exists ch, ext, hdr, bs.
  - intros (bs & -> & (ch & ext & hdr & body & W & H & ->)). rewrite <- app_assoc in *. rewrite (sasl_extended md _ ext hdr _ W).
    apply app_ok in Hb as [_ Hb].
    assert (E : decode sasl_frame_body_dec md (body ++ rest) = Ok (rest, sf_body f)) by (apply (grammar_decode sasl_frame_body_S G HG); [exact Hb|now exists body]).
    rewrite E. destruct f. reflexivity.
Qed.

(** ** Messages *)
Lemma message_language G : grammar section_S G -> forall md inp r m, bytes_ok inp ->
  (message_decode md inp = Ok (r, m) <->
   exists secs parts, inp = concat parts /\ secs <> [] /\ Forall2 (G md) secs parts /\ r = last parts [] /\ m = message_of secs).
Proof.
  intros HG md inp r m Hb. destruct (proj1 grammar_exact _ section_S G HG) as [_ X].
  assert (K : forall secs parts, bytes_ok (concat parts) -> (Forall2 (reads section_dec md) parts secs <-> Forall2 (G md) secs parts)).
  { intros secs. induction secs as [|s secs IH]; intros parts B; (split; [intros H|intros H]); inversion H as [|? ? ps ? H1 H2]; subst; constructor;
      cbn [concat] in B; apply app_ok in B as [B1 B2]; try (now apply IH); now apply (X md). }
  split.
  - intros E. apply message_read in E as (secs & parts & -> & N & F & -> & ->). exists secs, parts. repeat split; auto. now apply K.
  - intros (secs & parts & -> & N & F & -> & ->). apply K in F; [|exact Hb]. now apply message_accepts.
Qed.

(** ** Streams *)
Lemma framed_of n src : 4 <= n < 2 ^ 32 -> n <= zlen (be4 n ++ src) ->
  exists body rest, src = body ++ rest /\ framed body (be4 n ++ body) /\ zlen body = n - 4.
Proof.
  intros N L. rewrite zlen_app, zlen_be4 in L. exists (ztake (n - 4) src), (zdrop (n - 4) src).
  assert (Q : zlen (ztake (n - 4) src) = n - 4) by (apply zlen_ztake; lia). split; [symmetry; apply ztake_zdrop|]. split; [|exact Q].
  split; [|lia]. do 2 f_equal. lia.
Qed.
Section Stream.
Context {T : Type} (D : mode -> bytes -> res (bytes * T)) (md : mode).
Hypothesis total : forall inp, D md inp <> Oof.

Lemma codec_tiny n rest : 0 <= n < 4 -> 4 <= zlen rest -> zlen (be4 n ++ rest) < 2 ^ 63 ->
  amqp_codec_decode D md FrameHeader (be4 n ++ rest) =
  match md with Debug => (FrameHeader, be4 n ++ rest, DPanic PArith) | Release => (Frame (2 ^ 64 + n - 4), rest, DNone) end.
Proof.
  intros N L B. rewrite header_state. rewrite (ztake_app 4), (zdrop_app 4) by reflexivity. rewrite be_val_be4 by lia.
  rewrite zlen_app, zlen_be4 in *. destruct (Z.ltb_spec (4 + zlen rest) 8); [lia|]. rewrite usub_length by lia.
  destruct (Z.ltb_spec n 4); [|lia]. destruct md; [reflexivity|]. destruct (Z.ltb_spec (4 + zlen rest) n); [lia|].
  unfold decode_frame_arm. destruct (Z.ltb_spec (zlen rest) (n - 4 + 2 ^ 64)); [|lia]. do 3 f_equal. lia.
Qed.
Lemma codec_part n part : 4 <= zlen part -> 4 + zlen part < n < 2 ^ 32 ->
  amqp_codec_decode D md FrameHeader (be4 n ++ part) = (Frame (n - 4), part, DNone).
Proof.
  intros L N. rewrite header_state. rewrite (ztake_app 4), (zdrop_app 4) by reflexivity. rewrite be_val_be4 by lia.
  rewrite zlen_app, zlen_be4. destruct (Z.ltb_spec (4 + zlen part) 8); [lia|]. rewrite usub_length by lia.
  destruct (Z.ltb_spec n 4); [lia|]. destruct (Z.ltb_spec (4 + zlen part) n); [reflexivity|lia].
Qed.
Lemma reading_sound src s evs : stream_reading D md src s evs -> zlen src < 2 ^ 63 -> run D md FrameHeader src = (s, evs).
Proof.
  induction 1 as [src H|n part H1 H2|x body bs rest s evs F L E _ IH|x body bs rest l F L E N|body bs rest e F L E|body bs rest p F L E
    |n rest M N L|n rest M N L]; intros B; rewrite run_eq.
  - rewrite header_state. destruct (Z.ltb_spec (zlen src) 8); [reflexivity|lia].
  - now rewrite codec_part.
  - rewrite (codec_frame D md body bs rest F L), arm_body, E. rewrite IH; [reflexivity|]. rewrite zlen_app in B. pose proof (zlen_nonneg bs). lia.
  - rewrite (codec_frame D md body bs rest F L), arm_body, E. destruct l; [easy|reflexivity].
  - now rewrite (codec_frame D md body bs rest F L), arm_body, E.
  - now rewrite (codec_frame D md body bs rest F L), arm_body, E.
  - rewrite codec_tiny by assumption. now rewrite M.
  - rewrite codec_tiny by assumption. now rewrite M.
Qed.
Lemma reading_complete k : forall src, zlen src < Z.of_nat k -> bytes_ok src -> zlen src < 2 ^ 63 ->
  let (s, evs) := run D md FrameHeader src in stream_reading D md src s evs.
Proof.
  induction k as [|k IH]; intros src K B BIG; [pose proof (zlen_nonneg src); lia|]. destruct (Z_lt_ge_dec (zlen src) 8) as [L|L].
  - assert (R : stream_reading D md src (SLive FrameHeader src) []) by now constructor. now rewrite (reading_sound _ _ _ R BIG).
  - destruct (four_bytes src B ltac:(lia)) as (n & N & E & _). set (r := zdrop 4 src) in *. clearbody r.
    assert (Lr : 4 <= zlen r) by (rewrite E, zlen_app, zlen_be4 in L; lia). destruct (Z_lt_ge_dec n 4) as [L4|L4].
    + destruct md eqn:M.
      * assert (R : stream_reading D Debug src SDead [EvPanic PArith]) by (rewrite E; apply SR_tiny_checked; [reflexivity|lia|exact Lr]).
        rewrite <- M in *. now rewrite (reading_sound _ _ _ R BIG).
      * assert (R : stream_reading D Release src (SLive (Frame (2 ^ 64 + n - 4)) r) []) by (rewrite E; apply SR_tiny_unchecked; [reflexivity|lia|exact Lr]).
        rewrite <- M in *. now rewrite (reading_sound _ _ _ R BIG).
    + destruct (Z_lt_ge_dec (zlen src) n) as [Ln|Ln].
      * assert (R : stream_reading D md src (SLive (Frame (n - 4)) r) []).
        { rewrite E. apply SR_part; [exact Lr|]. rewrite E, zlen_app, zlen_be4 in Ln. lia. }
        now rewrite (reading_sound _ _ _ R BIG).
      * destruct (framed_of n r ltac:(lia)) as (body & rest & -> & F & Lb); [rewrite E in Ln; lia|].
        rewrite app_assoc in E. rewrite E in L, K, B, BIG |- *. clear src E Ln.
        destruct (D md body) as [[[|c l] x]|e|p|] eqn:EB.
        -- assert (Lrest : zlen rest < Z.of_nat k) by (rewrite !zlen_app, zlen_be4 in K; pose proof (zlen_nonneg body); lia).
           apply app_ok in B as [_ B]. specialize (IH rest Lrest B).
           assert (BIG' : zlen rest < 2 ^ 63) by (rewrite !zlen_app, zlen_be4 in BIG; pose proof (zlen_nonneg body); lia).
           specialize (IH BIG'). destruct (run D md FrameHeader rest) as [s evs] eqn:ER.
           assert (R : stream_reading D md ((be4 n ++ body) ++ rest) s (EvItem x :: evs)) by (apply (SR_frame D md x body); auto; lia).
           now rewrite (reading_sound _ _ _ R BIG).
        -- assert (R : stream_reading D md ((be4 n ++ body) ++ rest) SDead [EvErr CUnparsedBytesLeft]).
           { apply (SR_left D md x body _ _ (c :: l)); auto; [lia|discriminate]. }
           now rewrite (reading_sound _ _ _ R BIG).
        -- assert (R : stream_reading D md ((be4 n ++ body) ++ rest) SDead [EvErr (CParse e)]) by (apply (SR_bad D md body); auto; lia).
           now rewrite (reading_sound _ _ _ R BIG).
        -- assert (R : stream_reading D md ((be4 n ++ body) ++ rest) SDead [EvPanic p]) by (apply (SR_panic D md body); auto; lia).
           now rewrite (reading_sound _ _ _ R BIG).
        -- now elim (total body).
Qed.
Lemma stream_language chunks s evs : bytes_ok (concat chunks) -> zlen (concat chunks) < 2 ^ 63 ->
  (feed_all D md stream_new chunks = (s, evs) <-> stream_reading D md (concat chunks) s evs).
Proof.
  intros B BIG. rewrite feed_all_concat. change (feed D md stream_new (concat chunks)) with (run D md FrameHeader (concat chunks)). split.
  - intros E. pose proof (reading_complete (S (length (concat chunks))) (concat chunks)) as H. rewrite E in H. apply H; auto. unfold zlen. lia.
  - intros R. now apply reading_sound.
Qed.
(** Everything read, nothing left: frames one after the other. *)
Lemma reading_items src xs : stream_reading D md src stream_new (map EvItem xs) ->
  exists bss, src = concat bss /\ Forall2 (fun x bs => exists body, framed body bs /\ D md body = Ok ([], x)) xs bss.
Proof.
  intros R. remember (@stream_new) as s eqn:Es. remember (map EvItem xs) as evs eqn:Ee. revert xs Es Ee.
  induction R as [src H|n part H1 H2|x body bs rest s evs F L E _ IH|x body bs rest l F L E N|body bs rest e F L E|body bs rest p F L E
    |n rest M N L|n rest M N L]; intros xs Es Ee; try discriminate.
  - injection Es as ->. destruct xs; [|discriminate]. exists []. now split.
  - destruct xs as [|y xs]; [discriminate|]. injection Ee as <- Ee. destruct (IH xs Es Ee) as (bss & -> & H). exists (bs :: bss). split; [reflexivity|].
    constructor; [now exists body|exact H].
Qed.
Lemma items_reading xs bss : Forall2 (fun x bs => exists body, framed body bs /\ 4 <= zlen body /\ D md body = Ok ([], x)) xs bss ->
  stream_reading D md (concat bss) stream_new (map EvItem xs).
Proof.
  induction 1 as [|x bs xs bss (body & F & L & E) _ IH]; cbn [concat map].
  - now apply SR_wait.
  - apply (SR_frame D md x body); auto. destruct (framed_head body bs (concat bss) F) as (_ & _ & _ & ->). pose proof (zlen_nonneg (concat bss)). lia.
Qed.
End Stream.
Lemma header_zlen type ch ext hdr : wire_header type ch ext hdr -> 4 <= zlen hdr.
Proof. intros [doff c e H1 H2 H3]. rewrite !zlen_cons, zlen_app, zlen_be2. pose proof (zlen_nonneg e). lia. Qed.
Lemma stream_exact {T} (D : mode -> bytes -> res (bytes * T)) (G : mode -> T -> bytes -> Prop) md :
  (forall inp, D md inp <> Oof) -> (forall x bs, bytes_ok bs -> (D md bs = Ok ([], x) <-> G md x bs)) -> (forall x bs, G md x bs -> 4 <= zlen bs) ->
  forall chunks xs, bytes_ok (concat chunks) -> zlen (concat chunks) < 2 ^ 63 ->
  (feed_all D md stream_new chunks = (stream_new, map EvItem xs) <->
   exists bss, concat chunks = concat bss /\ Forall2 (on_stream G md) xs bss).
Proof.
  intros TD X L chunks xs B BIG. rewrite (stream_language D md TD chunks _ _ B BIG). split.
  - intros R. apply reading_items in R as (bss & E & F). exists bss. split; [exact E|]. rewrite E in B. clear E BIG. revert B.
    induction F as [|x bs xs bss (body & H1 & H2) _ IH]; intros B; constructor; cbn [concat] in B; apply app_ok in B as [B1 B2]; [|now apply IH].
    exists body. split; [exact H1|]. apply X; [|exact H2]. destruct H1 as [-> _]. now apply app_ok in B1.
  - intros (bss & E & F). rewrite E in B |- *. apply (items_reading D md TD). clear E BIG. revert B.
    induction F as [|x bs xs bss (body & H1 & H2) _ IH]; intros B; constructor; cbn [concat] in B; apply app_ok in B as [B1 B2]; [|now apply IH].
    exists body. split; [exact H1|]. split; [now apply (L x)|]. apply X; [|exact H2]. destruct H1 as [-> _]. now apply app_ok in B1.
Qed.
Lemma amqp_stream_language G : frame_grammar G -> forall md chunks fs, bytes_ok (concat chunks) -> zlen (concat chunks) < 2 ^ 63 ->
  (feed_all amqp_frame_decode md stream_new chunks = (stream_new, map EvItem fs) <->
   exists bss, concat chunks = concat bss /\ Forall2 (on_stream (amqp_grammar G) md) fs bss).
Proof.
  intros HG md. apply stream_exact.
  - apply amqp_total.
  - intros f bs B. rewrite (amqp_language G HG md bs [] f B). split.
    + intros (p & E & H & _). rewrite app_nil_r in E. now subst p.
    + intros H. exists bs. now rewrite app_nil_r.
  - intros f bs (ext & hdr & body & W & _ & ->). apply header_zlen in W. rewrite zlen_app. pose proof (zlen_nonneg body). lia.
Qed.
Lemma sasl_stream_language G : grammar sasl_frame_body_S G -> forall md chunks fs, bytes_ok (concat chunks) -> zlen (concat chunks) < 2 ^ 63 ->
  (feed_all sasl_frame_decode md stream_new chunks = (stream_new, map EvItem fs) <->
   exists bss, concat chunks = concat bss /\ Forall2 (on_stream (sasl_grammar G) md) fs bss).
Proof.
  intros HG md. apply stream_exact.
  - apply sasl_total.
  - intros f bs B. rewrite (sasl_language G HG md bs [] f B). split.
    + intros (p & E & H). rewrite app_nil_r in E. now subst p.
    + intros H. exists bs. now rewrite app_nil_r.
  - intros f bs (ch & ext & hdr & body & W & _ & ->). apply header_zlen in W. rewrite zlen_app. pose proof (zlen_nonneg body). lia.
Qed.

(** One stream is one sequence of frames. *)
Lemma framed_inj body bs rest body' bs' rest' : framed body bs -> framed body' bs' -> bs ++ rest = bs' ++ rest' ->
  body = body' /\ bs = bs' /\ rest = rest'.
Proof.
  intros F F' E. destruct (framed_head body bs rest F) as (_ & A & B & _). destruct (framed_head body' bs' rest' F') as (_ & A' & B' & _).
  rewrite E in A, B. rewrite A' in A. rewrite B' in B. assert (L : length body = length body') by (unfold zlen in B; lia).
  destruct F as [-> _]. destruct F' as [-> _].
  assert (K : body = body' /\ rest = rest').
  { clear - A L. revert body' L A. induction body as [|x body IH]; intros [|y body'] L A; try discriminate; cbn [app] in A; [now split|].
    injection A as -> A. injection L as L. destruct (IH body' L A) as [-> ->]. now split. }
  destruct K as [-> ->]. auto.
Qed.
Lemma stream_unambiguous {T} (G : mode -> T -> bytes -> Prop) md : (forall x y bs, bytes_ok bs -> G md x bs -> G md y bs -> x = y) ->
  forall xs bss ys css, bytes_ok (concat bss) -> Forall2 (on_stream G md) xs bss -> Forall2 (on_stream G md) ys css -> concat bss = concat css ->
  xs = ys /\ bss = css.
Proof.
  intros U xs. induction xs as [|x xs IH]; intros bss ys css B H1 H2 E; inversion H1 as [|? b ? bs' (body & F & HG) H1']; subst;
    inversion H2 as [|y c ys' cs' (body' & F' & HG') H2']; subst; cbn [concat] in *.
  - auto.
  - destruct F' as [-> _]. discriminate.
  - destruct F as [-> _]. discriminate.
  - destruct (framed_inj _ _ _ _ _ _ F F' E) as (-> & -> & E'). apply app_ok in B as [B1 B2].
    destruct (IH bs' ys' cs' B2 H1' H2' E') as [-> ->]. split; [|reflexivity]. f_equal. apply (U x y body'); auto.
    destruct F as [-> _]. now apply app_ok in B1.
Qed.
Lemma amqp_unambiguous G : frame_grammar G -> forall md fs bss gs css, bytes_ok (concat bss) ->
  Forall2 (on_stream (amqp_grammar G) md) fs bss -> Forall2 (on_stream (amqp_grammar G) md) gs css -> concat bss = concat css -> fs = gs /\ bss = css.
Proof.
  intros HG md. apply stream_unambiguous. intros x y bs B H1 H2.
  assert (E1 : amqp_frame_decode md bs = Ok ([], x)) by (apply (amqp_language G HG); [exact B|exists bs; now rewrite app_nil_r]).
  assert (E2 : amqp_frame_decode md bs = Ok ([], y)) by (apply (amqp_language G HG); [exact B|exists bs; now rewrite app_nil_r]).
  congruence.
Qed.
Lemma sasl_unambiguous G : grammar sasl_frame_body_S G -> forall md fs bss gs css, bytes_ok (concat bss) ->
  Forall2 (on_stream (sasl_grammar G) md) fs bss -> Forall2 (on_stream (sasl_grammar G) md) gs css -> concat bss = concat css -> fs = gs /\ bss = css.
Proof.
  intros HG md. apply stream_unambiguous. intros x y bs B H1 H2.
  assert (E1 : sasl_frame_decode md bs = Ok ([], x)) by (apply (sasl_language G HG); [exact B|exists bs; now rewrite app_nil_r]).
  assert (E2 : sasl_frame_decode md bs = Ok ([], y)) by (apply (sasl_language G HG); [exact B|exists bs; now rewrite app_nil_r]).
  congruence.
Qed.

(** The standard's encodings are among what is read. *)
Lemma frame_standard G : frame_grammar G -> forall md f bs, bytes_ok bs -> wire_frame f bs -> frame_decodable f -> G md f bs.
Proof.
  intros HG md f bs B W D. apply (frame_whole G HG); [exact B|]. rewrite <- (app_nil_r bs) at 1. now apply frame_accepts.
Qed.
