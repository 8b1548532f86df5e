(** Facts about the stream codec: chunks, frames, errors, buffers, protocol header. *)

From Coq Require Import String.
From Verif Require Import Io BaseFacts Utf8Spec Valid Wire PrimFacts DecLaws EncLaws VariantFacts TypeSpec TypeFacts CompositeSpec
  CompositeFacts AllTypes AllTypesFacts CodecSpec CodecFacts MessageSpec MessageFacts FrameSpec FrameFacts FramingFacts StreamSpec.
From Coq Require Import ZifyBool.
Ltac Zify.zify_post_hook ::= Z.div_mod_to_equations.
Open Scope Z_scope.

Lemma zlen_length {A} (l : list A) : zlen l = Z.of_nat (length l).
Proof. reflexivity. Qed.

Lemma framed_head body bs rest : framed body bs ->
  ztake 4 (bs ++ rest) = be4 (4 + zlen body) /\ zdrop 4 (bs ++ rest) = body ++ rest /\ be_val (ztake 4 (bs ++ rest)) = 4 + zlen body /\
  zlen (bs ++ rest) = 4 + zlen body + zlen rest.
Proof.
  intros [-> L]. pose proof (zlen_nonneg body). rewrite <- app_assoc, ztake_app, zdrop_app by reflexivity.
  repeat split; [apply be_val_be4; lia|]. rewrite !zlen_app, zlen_be4. lia.
Qed.

(** ** One call of [decode] *)
Section Codec.
Context {T : Type} (D : mode -> bytes -> res (bytes * T)).

Notation codec_decode := (amqp_codec_decode D).

(** What a length of [n] becomes. *)
Lemma usub_length md n : 0 <= n < 2 ^ 32 ->
  usub md 64 n 4 = if n <? 4 then match md with Debug => Panic PArith | Release => Ok (n - 4 + 2 ^ 64) end else Ok (n - 4).
Proof.
  intros H. unfold usub. destruct (Z.ltb_spec n 4); [|reflexivity]. destruct md; [reflexivity|]. f_equal. lia.
Qed.
(** The three ways a call can go in the header state. *)
Lemma header_state md src : codec_decode md FrameHeader src =
  if zlen src <? 8 then (FrameHeader, src, DNone)
  else match usub md 64 (be_val (ztake 4 src)) 4 with
    | Ok n => if zlen src <? be_val (ztake 4 src) then (Frame n, zdrop 4 src, DNone) else decode_frame_arm D md n (zdrop 4 src)
    | _ => (FrameHeader, src, DPanic PArith)
    end.
Proof. reflexivity. Qed.
Lemma arm_more md size src more st1 src1 out : decode_frame_arm D md size src = (st1, src1, out) -> out <> DNone ->
  decode_frame_arm D md size (src ++ more) = (st1, src1 ++ more, out).
Proof.
  unfold decode_frame_arm. rewrite zlen_app. pose proof (zlen_nonneg more). destruct (Z.ltb_spec (zlen src) size).
  - intros [= <- <- <-] N. now elim N.
  - intros E _. destruct (Z.ltb_spec (zlen src + zlen more) size); [lia|].
    rewrite ztake_app_le, zdrop_app_le by lia. destruct (D md (ztake size src)) as [[[|? ?] x]|e|p|]; injection E as <- <- <-; reflexivity.
Qed.
Lemma arm_none md size src st1 src1 : decode_frame_arm D md size src = (st1, src1, DNone) -> st1 = Frame size /\ src1 = src /\ zlen src < size.
Proof.
  unfold decode_frame_arm. destruct (Z.ltb_spec (zlen src) size); [intros [= <- <-]; auto|].
  destruct (D md (ztake size src)) as [[[|? ?] x]|e|p|]; discriminate.
Qed.
Lemma arm_item md size src st1 src1 x : decode_frame_arm D md size src = (st1, src1, DItem x) ->
  st1 = FrameHeader /\ size <= zlen src /\ src1 = zdrop size src /\ D md (ztake size src) = Ok ([], x).
Proof.
  unfold decode_frame_arm. destruct (Z.ltb_spec (zlen src) size); [discriminate|].
  destruct (D md (ztake size src)) as [[[|? ?] y]|e|p|]; try discriminate. intros [= <- <- <-]. auto.
Qed.
(** Bytes received later do not change what has been decided. *)
Lemma decode_more md st src more st1 src1 out : codec_decode md st src = (st1, src1, out) -> out <> DNone ->
  codec_decode md st (src ++ more) = (st1, src1 ++ more, out).
Proof.
  destruct st as [|size]; [|apply arm_more]. rewrite !header_state, zlen_app. pose proof (zlen_nonneg more).
  destruct (Z.ltb_spec (zlen src) 8). { intros [= <- <- <-] N. now elim N. }
  destruct (Z.ltb_spec (zlen src + zlen more) 8); [lia|]. rewrite (ztake_app_le 4) by lia. rewrite (zdrop_app_le 4) by lia.
  destruct (usub _ _ _ _) as [n|e|p|]; try (intros [= <- <- <-] _; reflexivity).
  destruct (Z.ltb_spec (zlen src) (be_val (ztake 4 src))). { intros [= <- <- <-] N. now elim N. }
  destruct (Z.ltb_spec (zlen src + zlen more) (be_val (ztake 4 src))); [lia|]. apply arm_more.
Qed.
(** A call that yields nothing loses nothing. *)
Lemma decode_resume md st src st1 src1 more : codec_decode md st src = (st1, src1, DNone) ->
  codec_decode md st (src ++ more) = codec_decode md st1 (src1 ++ more).
Proof.
  destruct st as [|size]; [|intros E; apply arm_none in E as (-> & -> & _); reflexivity].
  rewrite !header_state, zlen_app. pose proof (zlen_nonneg more).
  destruct (Z.ltb_spec (zlen src) 8). { intros [= <- <-]. rewrite header_state. now rewrite zlen_app. }
  destruct (Z.ltb_spec (zlen src + zlen more) 8); [lia|]. rewrite (ztake_app_le 4) by lia. rewrite (zdrop_app_le 4) by lia.
  destruct (usub _ _ _ _) as [n|e|p|] eqn:U; try discriminate.
  destruct (Z.ltb_spec (zlen src) (be_val (ztake 4 src))).
  - intros [= <- <-]. unfold usub in U. destruct (Z.ltb_spec (be_val (ztake 4 src)) 4); [lia|]. injection U as <-.
    destruct (Z.ltb_spec (zlen src + zlen more) (be_val (ztake 4 src))); [|reflexivity].
    unfold amqp_codec_decode, decode_frame_arm. rewrite zlen_app, zlen_zdrop by lia.
    destruct (Z.ltb_spec (zlen src - 4 + zlen more) (be_val (ztake 4 src) - 4)); [reflexivity|lia].
  - intros E. apply arm_none in E as (-> & -> & _). destruct (Z.ltb_spec (zlen src + zlen more) (be_val (ztake 4 src))); [lia|]. reflexivity.
Qed.
Lemma decode_item md st src st1 src1 x : codec_decode md st src = (st1, src1, DItem x) ->
  st1 = FrameHeader /\ zlen src1 + match st with FrameHeader => 4 | Frame _ => 0 end <= zlen src.
Proof.
  destruct st as [|size].
  - rewrite header_state. destruct (Z.ltb_spec (zlen src) 8); [discriminate|]. destruct (usub md 64 (be_val (ztake 4 src)) 4) as [n|e|p|]; try discriminate.
    destruct (zlen src <? be_val (ztake 4 src)); [discriminate|]. intros E. apply arm_item in E as (-> & _ & -> & _). split; [reflexivity|].
    pose proof (zlen_zdrop_le n (zdrop 4 src)). rewrite (zlen_zdrop 4) in * by lia. lia.
  - intros E. apply arm_item in E as (-> & _ & -> & _). split; [reflexivity|]. pose proof (zlen_zdrop_le size src). lia.
Qed.

(** ** The reading loop *)
Notation drain := (drain D).
Notation feed := (feed D).
Notation feed_all := (feed_all D).
Definition rank (st : decode_state) (src : bytes) : Z := zlen src + match st with FrameHeader => 0 | Frame _ => 1 end.
Definition after {A} (evs : list A) (r : stream_state * list A) : stream_state * list A := let (s, e) := r in (s, evs ++ e).
Lemma after_nil {A} (r : stream_state * list A) : after [] r = r. Proof. now destruct r. Qed.
Lemma after_after {A} (a b : list A) r : after a (after b r) = after (a ++ b) r.
Proof. destruct r as [s e]. cbn [after]. now rewrite app_assoc. Qed.
Lemma drain_S f md st src : drain (S f) md st src =
  match codec_decode md st src with
  | (st', src', DNone) => (SLive st' src', [])
  | (st', src', DItem x) => after [EvItem x] (drain f md st' src')
  | (_, _, DErr e) => (SDead, [EvErr e])
  | (_, _, DPanic p) => (SDead, [EvPanic p])
  | (_, _, DOof) => (SDead, [EvOof])
  end.
Proof. cbn [Io.drain]. destruct (codec_decode md st src) as [[st' src'] [|x|e|p|]]; try reflexivity. Qed.
Lemma rank_item md st src st1 src1 x : codec_decode md st src = (st1, src1, DItem x) -> rank st1 src1 < rank st src.
Proof. intros E. apply decode_item in E as [-> L]. unfold rank. destruct st; lia. Qed.
Lemma drain_fuel f1 : forall f2 md st src, rank st src < Z.of_nat f1 -> rank st src < Z.of_nat f2 -> drain f1 md st src = drain f2 md st src.
Proof.
  induction f1 as [|f1 IH]; intros f2 md st src H1 H2.
  - unfold rank in H1. pose proof (zlen_nonneg src). destruct st; lia.
  - destruct f2 as [|f2]; [unfold rank in H2; pose proof (zlen_nonneg src); destruct st; lia|]. rewrite !drain_S.
    destruct (codec_decode md st src) as [[st' src'] [|x|e|p|]] eqn:E; try reflexivity. apply rank_item in E. f_equal. apply IH; lia.
Qed.
(** The loop run to its end. *)
Definition run (md : mode) (st : decode_state) (src : bytes) : stream_state * list (event T) := drain (2 + length src) md st src.
Lemma run_eq md st src : run md st src =
  match codec_decode md st src with
  | (st', src', DNone) => (SLive st' src', [])
  | (st', src', DItem x) => after [EvItem x] (run md st' src')
  | (_, _, DErr e) => (SDead, [EvErr e])
  | (_, _, DPanic p) => (SDead, [EvPanic p])
  | (_, _, DOof) => (SDead, [EvOof])
  end.
Proof.
  unfold run at 1. cbn [Nat.add]. rewrite drain_S. destruct (codec_decode md st src) as [[st' src'] [|x|e|p|]] eqn:E; try reflexivity.
  apply rank_item in E. f_equal. apply drain_fuel; unfold rank in *; rewrite !zlen_length in *; destruct st, st'; lia.
Qed.
Lemma run_ind md (P : decode_state -> bytes -> Prop) :
  (forall st src, (forall st1 src1 x, codec_decode md st src = (st1, src1, DItem x) -> P st1 src1) -> P st src) -> forall st src, P st src.
Proof.
  intros H. assert (K : forall n st src, rank st src < Z.of_nat n -> P st src).
  { induction n as [|n IH]; intros st src L; [unfold rank in L; pose proof (zlen_nonneg src); destruct st; lia|].
    apply H. intros st1 src1 x E. apply rank_item in E. apply IH. lia. }
  intros st src. apply (K (S (Z.to_nat (rank st src)))). unfold rank. pose proof (zlen_nonneg src). destruct st; lia.
Qed.
(** Reading in two goes. *)
Lemma run_app md st src more : run md st (src ++ more) =
  let (s, e) := run md st src in after e match s with SLive st1 src1 => run md st1 (src1 ++ more) | SDead => (SDead, []) end.
Proof.
  revert st src. apply (run_ind md). intros st src IH. rewrite (run_eq md st src). destruct (codec_decode md st src) as [[st1 src1] [|x|e|p|]] eqn:E.
  - rewrite after_nil, (run_eq md st), (run_eq md st1), (decode_resume _ _ _ _ _ more E). reflexivity.
  - rewrite run_eq, (decode_more _ _ _ more _ _ _ E) by discriminate. rewrite (IH _ _ _ eq_refl). destruct (run md st1 src1) as [s e].
    cbn [after]. destruct s as [st2 src2|]; [destruct (run md st2 (src2 ++ more))|]; reflexivity.
  - rewrite run_eq, (decode_more _ _ _ more _ _ _ E) by discriminate. reflexivity.
  - rewrite run_eq, (decode_more _ _ _ more _ _ _ E) by discriminate. reflexivity.
  - rewrite run_eq, (decode_more _ _ _ more _ _ _ E) by discriminate. reflexivity.
Qed.
Lemma feed_live md st src chunk : feed md (SLive st src) chunk = run md st (src ++ chunk).
Proof. reflexivity. Qed.
Lemma run_new md : run md FrameHeader [] = (stream_new, []).
Proof. reflexivity. Qed.
Lemma feed_all_pre md chunks : forall pre, let (s, e) := run md FrameHeader pre in
  after e (feed_all md s chunks) = run md FrameHeader (pre ++ concat chunks).
Proof.
  induction chunks as [|c r IH]; intros pre.
  - cbn [concat]. rewrite app_nil_r. destruct (run md FrameHeader pre) as [s e]. cbn [Io.feed_all after]. now rewrite app_nil_r.
  - specialize (IH (pre ++ c)). cbn [concat]. rewrite app_assoc. rewrite run_app in IH. destruct (run md FrameHeader pre) as [s e] eqn:E.
    cbn [Io.feed_all]. destruct s as [st src|].
    + rewrite feed_live. destruct (run md st (src ++ c)) as [s1 e1]. cbn [after] in IH. rewrite <- IH. destruct (feed_all md s1 r) as [s2 e2].
      cbn [after]. now rewrite app_assoc.
    + cbn [Io.feed after] in *. rewrite app_nil_r in IH. rewrite <- IH. destruct (feed_all md SDead r) as [s2 e2]. reflexivity.
Qed.
Lemma feed_all_concat md chunks : feed_all md stream_new chunks = feed md stream_new (concat chunks).
Proof.
  pose proof (feed_all_pre md chunks []) as H. rewrite run_new in H. rewrite after_nil in H. exact H.
Qed.
Lemma chunk_independent md a b : concat a = concat b -> feed_all md stream_new a = feed_all md stream_new b.
Proof. intros H. now rewrite !feed_all_concat, H. Qed.
(** The loop never runs out of fuel. *)
Lemma no_oof md : (forall inp, D md inp <> Oof) -> forall chunks, ~ In EvOof (snd (feed_all md stream_new chunks)).
Proof.
  intros H chunks. rewrite feed_all_concat. change (feed md stream_new (concat chunks)) with (run md FrameHeader (concat chunks)).
  assert (A : forall n src s1 s2, decode_frame_arm D md n src <> (s1, s2, DOof)).
  { intros n src s1 s2. unfold decode_frame_arm. destruct (_ <? _); [discriminate|]. specialize (H (ztake n src)).
    destruct (D md (ztake n src)) as [[[|? ?] x]|e|p|]; try discriminate. now elim H. }
  generalize FrameHeader (concat chunks). apply (run_ind md). intros st src IH. rewrite run_eq.
  destruct (codec_decode md st src) as [[st1 src1] [|x|e|p|]] eqn:E; cbn [snd].
  - intros [].
  - specialize (IH _ _ _ eq_refl). destruct (run md st1 src1) as [s ev]. cbn [after snd] in *. intros [K|K]; [discriminate|now apply IH].
  - intros [K|[]]; discriminate.
  - intros [K|[]]; discriminate.
  - destruct st as [|n]; [|now apply A in E]. rewrite header_state in E. destruct (_ <? _); [discriminate|].
    destruct (usub _ _ _ _); try discriminate. destruct (_ <? _); [discriminate|]. now apply A in E.
Qed.

(** ** Whole frames *)
Lemma codec_frame md body bs rest : framed body bs -> 8 <= zlen (bs ++ rest) ->
  codec_decode md FrameHeader (bs ++ rest) = decode_frame_arm D md (zlen body) (body ++ rest).
Proof.
  intros F L8. destruct (framed_head body bs rest F) as (_ & E2 & E3 & E4). destruct F as [_ L]. pose proof (zlen_nonneg body). pose proof (zlen_nonneg rest).
  rewrite header_state, E2, E3. destruct (Z.ltb_spec (zlen (bs ++ rest)) 8); [lia|]. rewrite usub_length by lia.
  destruct (Z.ltb_spec (4 + zlen body) 4); [lia|]. destruct (Z.ltb_spec (zlen (bs ++ rest)) (4 + zlen body)); [lia|]. f_equal. lia.
Qed.
Lemma arm_body md body rest : decode_frame_arm D md (zlen body) (body ++ rest) =
  match D md body with
  | Ok ([], x) => (FrameHeader, rest, DItem x)
  | Ok (_ :: _, _) => (Frame (zlen body), rest, DErr CUnparsedBytesLeft)
  | Err e => (Frame (zlen body), rest, DErr (CParse e))
  | Panic p => (Frame (zlen body), rest, DPanic p)
  | Oof => (Frame (zlen body), rest, DOof)
  end.
Proof.
  unfold decode_frame_arm. pose proof (zlen_nonneg rest). rewrite zlen_app. destruct (Z.ltb_spec (zlen body + zlen rest) (zlen body)); [lia|].
  rewrite ztake_app, zdrop_app by reflexivity. destruct (D md body) as [[[|? ?] x]|e|p|]; reflexivity.
Qed.
Lemma codec_item md x bs rest : frame_of D md x bs -> codec_decode md FrameHeader (bs ++ rest) = (FrameHeader, rest, DItem x).
Proof.
  intros (body & F & L & E). rewrite (codec_frame md body bs rest F), arm_body, E; [reflexivity|].
  destruct (framed_head body bs rest F) as (_ & _ & _ & ->). pose proof (zlen_nonneg rest). lia.
Qed.
Lemma run_frames md xs bss rest : Forall2 (frame_of D md) xs bss ->
  run md FrameHeader (concat bss ++ rest) = after (map EvItem xs) (run md FrameHeader rest).
Proof.
  induction 1 as [|x bs xs bss H _ IH]; cbn [concat map app]; [now rewrite after_nil|].
  rewrite <- app_assoc, run_eq, (codec_item md x bs _ H), IH, after_after. reflexivity.
Qed.
Lemma frames_received md xs bss chunks : Forall2 (frame_of D md) xs bss -> concat chunks = concat bss ->
  feed_all md stream_new chunks = (stream_new, map EvItem xs).
Proof.
  intros H E. rewrite feed_all_concat, E. change (feed md stream_new (concat bss)) with (run md FrameHeader (concat bss)).
  rewrite <- (app_nil_r (concat bss)), (run_frames md xs bss [] H), run_new. cbn [after]. now rewrite app_nil_r.
Qed.
(** Part of a frame: nothing yet. *)
Lemma run_part md body bs part more : framed body bs -> bs = part ++ more -> more <> [] -> 4 <= zlen body ->
  snd (run md FrameHeader part) = [] /\ fst (run md FrameHeader part) <> SDead.
Proof.
  intros F E N L. assert (0 < zlen more) by (destruct more as [|m r]; [easy|rewrite zlen_cons; pose proof (zlen_nonneg r); lia]).
  destruct (framed_head body bs [] F) as (_ & _ & E3 & E4). rewrite app_nil_r in E3, E4. rewrite zlen_nil in E4. rewrite run_eq, header_state.
  destruct (Z.ltb_spec (zlen part) 8); [split; [reflexivity|discriminate]|]. subst bs. rewrite ztake_app_le in E3 by lia. rewrite E3.
  destruct F as [_ L2]. rewrite usub_length by lia. destruct (Z.ltb_spec (4 + zlen body) 4); [lia|].
  rewrite zlen_app in E4. destruct (Z.ltb_spec (zlen part) (4 + zlen body)); [split; [reflexivity|discriminate]|lia].
Qed.
Lemma frames_prompt md xs bss x bs part more chunks : Forall2 (frame_of D md) xs bss -> frame_of D md x bs -> bs = part ++ more -> more <> [] ->
  concat chunks = concat bss ++ part -> snd (feed_all md stream_new chunks) = map EvItem xs.
Proof.
  intros H (body & F & L & _) E N C. rewrite feed_all_concat, C. change (feed md stream_new ?x) with (run md FrameHeader x).
  rewrite (run_frames md xs bss part H). destruct (run_part md body bs part more F E N L) as [P _].
  destruct (run md FrameHeader part) as [s e]. cbn [snd after] in *. subst e. apply app_nil_r.
Qed.
End Codec.

(** ** What one call takes *)
Lemma four_bytes src : bytes_ok src -> 4 <= zlen src -> exists n, 0 <= n < 2 ^ 32 /\ src = be4 n ++ zdrop 4 src /\ be_val (ztake 4 src) = n.
Proof.
  intros B L. exists (be_val (ztake 4 src)).
  assert (B4 : bytes_ok (ztake 4 src)) by (rewrite <- (ztake_zdrop 4 src) in B; now apply Forall_app in B).
  assert (L4 : zlen (ztake 4 src) = 4) by (rewrite zlen_ztake; lia).
  pose proof (be_val_range _ B4) as R. rewrite L4 in R. split; [exact R|]. split; [|reflexivity].
  rewrite <- be_bytes_be4. assert (Q : length (ztake 4 src) = 4%nat) by (rewrite zlen_length in L4; lia).
  rewrite <- Q. rewrite be_bytes_be_val by exact B4. symmetry. apply ztake_zdrop.
Qed.
Lemma item_takes {T} (D : mode -> bytes -> res (bytes * T)) md src st1 src1 x : bytes_ok src -> zlen src < 2 ^ 63 ->
  amqp_codec_decode D md FrameHeader src = (st1, src1, DItem x) ->
  st1 = FrameHeader /\ exists body bs, framed body bs /\ src = bs ++ src1 /\ D md body = Ok ([], x).
Proof.
  intros B BIG. rewrite header_state. destruct (Z.ltb_spec (zlen src) 8); [discriminate|]. destruct (four_bytes src B ltac:(lia)) as (n & N & E & V).
  rewrite V, usub_length by exact N. destruct (Z.ltb_spec n 4).
  - destruct md; [discriminate|]. destruct (Z.ltb_spec (zlen src) n); [discriminate|]. intros I. apply arm_item in I as (_ & K & _).
    pose proof (zlen_zdrop_le 4 src). lia.
  - destruct (Z.ltb_spec (zlen src) n); [discriminate|]. intros I. apply arm_item in I as (-> & K & -> & I). split; [reflexivity|].
    exists (ztake (n - 4) (zdrop 4 src)), (be4 n ++ ztake (n - 4) (zdrop 4 src)).
    assert (L : zlen (ztake (n - 4) (zdrop 4 src)) = n - 4) by (apply zlen_ztake; lia).
    split; [split; [rewrite L; do 2 f_equal; lia|lia]|]. split; [|exact I]. rewrite <- app_assoc, ztake_zdrop. exact E.
Qed.
Lemma item_takes_body {T} (D : mode -> bytes -> res (bytes * T)) md size src st1 src1 x : 0 <= size ->
  amqp_codec_decode D md (Frame size) src = (st1, src1, DItem x) ->
  st1 = FrameHeader /\ exists body, zlen body = size /\ src = body ++ src1 /\ D md body = Ok ([], x).
Proof.
  intros P I. apply arm_item in I as (-> & K & -> & I). split; [reflexivity|]. exists (ztake size src).
  split; [apply zlen_ztake; lia|]. split; [symmetry; apply ztake_zdrop|exact I].
Qed.
(** When a call yields nothing, the frame is not complete. *)
Lemma none_incomplete {T} (D : mode -> bytes -> res (bytes * T)) md body bs rest st1 src1 : framed body bs -> 8 <= zlen (bs ++ rest) ->
  amqp_codec_decode D md FrameHeader (bs ++ rest) <> (st1, src1, DNone).
Proof.
  intros F L. rewrite (codec_frame D md body bs rest F L), arm_body. destruct (D md body) as [[[|? ?] x]|e|p|]; discriminate.
Qed.

(** ** After an error *)
Lemma error_state {T} (D : mode -> bytes -> res (bytes * T)) md body bs rest e : framed body bs -> 8 <= zlen (bs ++ rest) ->
  D md body = Err e -> amqp_codec_decode D md FrameHeader (bs ++ rest) = (Frame (zlen body), rest, DErr (CParse e)).
Proof. intros F L E. now rewrite (codec_frame D md body bs rest F L), arm_body, E. Qed.
Lemma stuck {T} (D : mode -> bytes -> res (bytes * T)) md src e : D md [] = Err e ->
  amqp_codec_decode D md (Frame 0) src = (Frame 0, src, DErr (CParse e)).
Proof.
  intros E. cbn [amqp_codec_decode]. unfold decode_frame_arm. pose proof (zlen_nonneg src). destruct (Z.ltb_spec (zlen src) 0); [lia|].
  now rewrite ztake_0, zdrop_0, E.
Qed.
Lemma misread_header type m tl : 0 <= m < 2 ^ 24 -> exists e, decode_frame_header (be4 m ++ tl) type = Err e.
Proof.
  intros M. unfold be4. cbn [app]. destruct (Z.eq_dec (m / 2 ^ 16 mod 256) type) as [E|N].
  - exists EInvalidSize. rewrite <- E. apply header_small_offset; [|rewrite !zlen_cons; pose proof (zlen_nonneg tl); lia].
    rewrite Z.div_small by lia. cbn. lia.
  - eexists. apply header_wrong_type; [exact N|]. rewrite !zlen_cons. pose proof (zlen_nonneg tl). lia.
Qed.
Lemma misread {T} (D : mode -> bytes -> res (bytes * T)) md n m tl :
  (forall k, exists e, D md (be4 m ++ k) = Err e) -> 4 <= n ->
  (exists e, amqp_codec_decode D md (Frame n) (be4 m ++ tl) = (Frame n, zdrop n (be4 m ++ tl), DErr (CParse e))) \/
  amqp_codec_decode D md (Frame n) (be4 m ++ tl) = (Frame n, be4 m ++ tl, DNone).
Proof.
  intros H N. cbn [amqp_codec_decode]. unfold decode_frame_arm. destruct (Z.ltb_spec (zlen (be4 m ++ tl)) n); [now right|left].
  assert (Q : ztake n (be4 m ++ tl) = be4 m ++ ztake (n - 4) tl).
  { unfold ztake. rewrite firstn_app. change (length (be4 m)) with 4%nat. rewrite firstn_all2 by (change (length (be4 m)) with 4%nat; lia).
    do 2 f_equal. lia. }
  rewrite Q. destruct (H (ztake (n - 4) tl)) as [e ->]. now exists e.
Qed.

Lemma amqp_misread md n m tl : 0 <= m < 2 ^ 24 -> 4 <= n ->
  (exists e, amqp_codec_decode amqp_frame_decode md (Frame n) (be4 m ++ tl) = (Frame n, zdrop n (be4 m ++ tl), DErr (CParse e))) \/
  amqp_codec_decode amqp_frame_decode md (Frame n) (be4 m ++ tl) = (Frame n, be4 m ++ tl, DNone).
Proof.
  intros M. apply misread. intros k. destruct (misread_header 0 m k M) as [e E]. exists e. now apply amqp_header_error.
Qed.
Lemma sasl_misread md n m tl : 0 <= m < 2 ^ 24 -> 4 <= n ->
  (exists e, amqp_codec_decode sasl_frame_decode md (Frame n) (be4 m ++ tl) = (Frame n, zdrop n (be4 m ++ tl), DErr (CParse e))) \/
  amqp_codec_decode sasl_frame_decode md (Frame n) (be4 m ++ tl) = (Frame n, be4 m ++ tl, DNone).
Proof.
  intros M. apply misread. intros k. destruct (misread_header 1 m k M) as [e E]. exists e. now apply sasl_header_error.
Qed.

(** ** Lengths too small *)
Lemma tiny_length {T} (D : mode -> bytes -> res (bytes * T)) n rest : 0 <= n < 4 -> 4 <= zlen rest ->
  amqp_codec_decode D Debug FrameHeader (be4 n ++ rest) = (FrameHeader, be4 n ++ rest, DPanic PArith) /\
  (zlen rest < 2 ^ 64 - 4 -> amqp_codec_decode D Release FrameHeader (be4 n ++ rest) = (Frame (2 ^ 64 - 4 + n), rest, DNone)).
Proof.
  intros N L. assert (L8 : 8 <= zlen (be4 n ++ rest)) by (rewrite zlen_app, zlen_be4; lia). rewrite !header_state.
  destruct (Z.ltb_spec (zlen (be4 n ++ rest)) 8); [lia|]. rewrite ztake_app, zdrop_app by reflexivity. rewrite be_val_be4 by lia.
  rewrite !usub_length by lia. destruct (Z.ltb_spec n 4); [|lia]. split; [reflexivity|]. intros BIG.
  destruct (Z.ltb_spec (zlen (be4 n ++ rest)) n); [lia|]. unfold decode_frame_arm.
  replace (n - 4 + 2 ^ 64) with (2 ^ 64 - 4 + n) by lia. destruct (Z.ltb_spec (zlen rest) (2 ^ 64 - 4 + n)); [reflexivity|lia].
Qed.
Lemma tiny_forever {T} (D : mode -> bytes -> res (bytes * T)) n chunks rest : 0 <= n < 4 -> concat chunks = be4 n ++ rest ->
  zlen rest < 2 ^ 64 - 4 -> snd (feed_all D Release stream_new chunks) = [].
Proof.
  intros N E BIG. rewrite feed_all_concat, E. change (feed D Release stream_new ?x) with (run D Release FrameHeader x). rewrite run_eq.
  destruct (Z_lt_ge_dec (zlen rest) 4) as [S|S].
  - rewrite header_state. destruct (Z.ltb_spec (zlen (be4 n ++ rest)) 8); [reflexivity|]. rewrite zlen_app, zlen_be4 in *. lia.
  - destruct (tiny_length D n rest N ltac:(lia)) as [_ ->]; [reflexivity|exact BIG].
Qed.
Lemma tiny_panics {T} (D : mode -> bytes -> res (bytes * T)) n chunks rest : 0 <= n < 4 -> concat chunks = be4 n ++ rest -> 4 <= zlen rest ->
  feed_all D Debug stream_new chunks = (SDead, [EvPanic PArith]).
Proof.
  intros N E L. rewrite feed_all_concat, E. change (feed D Debug stream_new ?x) with (run D Debug FrameHeader x). rewrite run_eq.
  destruct (tiny_length D n rest N L) as [-> _]. reflexivity.
Qed.
Lemma small_length md n rest : 4 <= n < 8 -> 4 <= zlen rest ->
  amqp_codec_decode amqp_frame_decode md FrameHeader (be4 n ++ rest) = (Frame (n - 4), zdrop (n - 4) rest, DErr (CParse (EIncomplete (Some 4)))) /\
  amqp_codec_decode sasl_frame_decode md FrameHeader (be4 n ++ rest) = (Frame (n - 4), zdrop (n - 4) rest, DErr (CParse (EIncomplete (Some 4)))).
Proof.
  intros N L. assert (Z1 : zlen (ztake (n - 4) rest) = n - 4) by (apply zlen_ztake; lia).
  assert (F : framed (ztake (n - 4) rest) (be4 n ++ ztake (n - 4) rest)) by (split; [rewrite Z1; do 2 f_equal; lia|lia]).
  assert (R : be4 n ++ rest = (be4 n ++ ztake (n - 4) rest) ++ zdrop (n - 4) rest) by (now rewrite <- app_assoc, ztake_zdrop).
  assert (L8 : 8 <= zlen ((be4 n ++ ztake (n - 4) rest) ++ zdrop (n - 4) rest)) by (rewrite <- R, zlen_app, zlen_be4; lia).
  assert (H : forall t, decode_frame_header (ztake (n - 4) rest) t = Err (EIncomplete (Some 4))) by (intros t; apply header_short; lia).
  rewrite R. split.
  - rewrite (error_state amqp_frame_decode md _ _ _ _ F L8 (amqp_header_error md _ _ (H 0))). now rewrite Z1.
  - rewrite (error_state sasl_frame_decode md _ _ _ _ F L8 (sasl_header_error md _ _ (H 1))). now rewrite Z1.
Qed.

(** ** Buffers *)
Lemma run_ops_room slack ops b : 0 <= slack -> zlen (wbytes ops) <= remaining_mut b ->
  run_ops slack ops b = Some (MkBuf (b_cap b) (b_data b ++ wbytes ops)).
Proof.
  intros S. revert b. induction ops as [|o r IH]; intros b R.
  - cbn [run_ops]. rewrite wbytes_nil, app_nil_r. now destruct b.
  - rewrite wbytes_cons, zlen_app in R. pose proof (zlen_nonneg (wbytes r)) as P. cbn [run_ops].
    assert (E : run_op slack o b = Some (append b (wop_bytes o))).
    { destruct o as [d|d]; cbn [run_op wop_bytes] in *.
      - destruct (Z.leb_spec (zlen d) (remaining_mut b)); [reflexivity|lia].
      - unfold reserve. destruct (Z.leb_spec (zlen d) (remaining_mut b)); [reflexivity|lia]. }
    rewrite E, IH.
    + unfold append. cbn [b_cap b_data]. now rewrite wbytes_cons, app_assoc.
    + unfold remaining_mut, append in *. cbn [b_cap b_data]. rewrite zlen_app. lia.
Qed.
Lemma encode_room slack size ops b : 0 <= slack -> buf_ok b -> zlen (wbytes ops) <= size ->
  exists b', amqp_codec_encode slack size ops b = Some b' /\ b_data b' = b_data b ++ wbytes ops /\ buf_ok b'.
Proof.
  intros S O L. unfold amqp_codec_encode. cbv zeta.
  set (b1 := if remaining_mut b <? Z.max SIZE_LOW_WM size then reserve slack (Z.max (Z.max SIZE_LOW_WM size) SIZE_HIGH_WM) b else b).
  assert (H : b_data b1 = b_data b /\ size <= remaining_mut b1).
  { unfold b1. destruct (Z.ltb_spec (remaining_mut b) (Z.max SIZE_LOW_WM size)); [|split; [reflexivity|lia]]. unfold reserve.
    destruct (Z.leb_spec (Z.max (Z.max SIZE_LOW_WM size) SIZE_HIGH_WM) (remaining_mut b)); [split; [reflexivity|lia]|].
    split; [reflexivity|]. unfold remaining_mut. cbn [b_cap b_data]. lia. }
  destruct H as [H1 H2]. rewrite run_ops_room by lia. eexists. split; [reflexivity|]. cbn [b_data]. rewrite H1. split; [reflexivity|].
  unfold buf_ok. cbn [b_cap b_data]. unfold remaining_mut in H2. rewrite zlen_app. rewrite H1 in H2. lia.
Qed.
Lemma amqp_encode_room slack ch f b : 0 <= slack -> buf_ok b -> frame_valid f -> frame_memo_ok f ->
  exists b', amqp_codec_encode slack (amqp_frame_size (MkAmqpFrame ch f)) (amqp_frame_enc (MkAmqpFrame ch f)) b = Some b' /\
    b_data b' = b_data b ++ wbytes (amqp_frame_enc (MkAmqpFrame ch f)) /\ buf_ok b'.
Proof. intros S O V M. apply encode_room; auto. destruct (amqp_size_bytes ch f V M) as (E & _ & P). lia. Qed.
Lemma sasl_encode_room slack y b : 0 <= slack -> buf_ok b -> s_valid sasl_frame_body_S y ->
  exists b', amqp_codec_encode slack (sasl_frame_size (MkSaslFrame y)) (sasl_frame_enc (MkSaslFrame y)) b = Some b' /\
    b_data b' = b_data b ++ wbytes (sasl_frame_enc (MkSaslFrame y)) /\ buf_ok b'.
Proof. intros S O V. apply encode_room; auto. rewrite (sasl_size_bytes y V). lia. Qed.
Lemma type_encode_room {T} (S : tspec T) slack v b : amqp_type S -> 0 <= slack -> s_valid S v -> s_size S v <= remaining_mut b ->
  exists b', run_ops slack (e_enc (c_E (s_codec S)) v) b = Some b' /\ b_data b' = b_data b ++ s_bytes S v /\ b_cap b' = b_cap b.
Proof.
  intros G P V R. rewrite (type_size S G v V) in R. rewrite run_ops_room by (auto; exact R). eexists. split; [reflexivity|]. now split.
Qed.

(** ** Sending and receiving *)
Lemma send_frames {T} (size : T -> Z) ops items b : (forall slack x, In (slack, x) items -> 0 <= slack /\ zlen (wbytes (ops x)) <= size x) -> buf_ok b ->
  exists b', send_all size ops items b = Some b' /\ b_data b' = b_data b ++ concat (map (fun i => wbytes (ops (snd i))) items) /\ buf_ok b'.
Proof.
  revert b. induction items as [|[slack x] r IH]; intros b H O; cbn [send_all map concat snd].
  - exists b. rewrite app_nil_r. auto.
  - destruct (H slack x (or_introl eq_refl)) as [H1 H2]. destruct (encode_room slack (size x) (ops x) b H1 O H2) as (b1 & -> & E1 & O1).
    destruct (IH b1 (fun s y I => H s y (or_intror I)) O1) as (b2 & -> & E2 & O2). exists b2. rewrite E2, E1, app_assoc. auto.
Qed.
Lemma amqp_frame_of md f : amqp_sendable f -> frame_of amqp_frame_decode md (amqp_received f) (wbytes (amqp_frame_enc f)).
Proof.
  destruct f as [ch p]. intros [C H]. cbn [af_channel_id af_performative] in *. destruct (amqp_round_trip md ch p C H) as (body & E & L1 & L2 & _ & R).
  exists body. split; [split; [exact E|exact L2]|]. split; [exact L1|exact R].
Qed.
Lemma sasl_frame_of md f : sasl_sendable (sf_body f) -> frame_of sasl_frame_decode md (sasl_received f) (wbytes (sasl_frame_enc f)).
Proof.
  destruct f as [y]. cbn [sf_body]. intros H. destruct (sasl_round_trip md y H) as (body & E & L1 & L2 & _ & R).
  exists body. split; [split; [exact E|exact L2]|]. split; [exact L1|exact R].
Qed.
Lemma Forall2_maps {A B C} (P : B -> C -> Prop) (f : A -> B) (g : A -> C) l : (forall a, In a l -> P (f a) (g a)) -> Forall2 P (map f l) (map g l).
Proof. induction l as [|a l IH]; intros H; cbn [map]; constructor; [apply H; now left|apply IH; intros; apply H; now right]. Qed.
Lemma amqp_stream md items b : Forall (fun i => 0 <= fst i /\ amqp_sendable (snd i)) items -> buf_ok b -> b_data b = [] ->
  exists b', send_all amqp_frame_size amqp_frame_enc items b = Some b' /\
    forall chunks, concat chunks = b_data b' ->
      feed_all amqp_frame_decode md stream_new chunks = (stream_new, map (fun i => EvItem (amqp_received (snd i))) items).
Proof.
  intros H O E. rewrite Forall_forall in H. destruct (send_frames amqp_frame_size amqp_frame_enc items b) as (b' & S & D & _); [|exact O|].
  - intros slack x I. destruct (H _ I) as [H1 [H2 H3]]. split; [exact H1|]. destruct x as [ch p]. cbn [fst snd af_performative] in *.
    destruct H3 as (V & M & Z0 & _). destruct (amqp_size_bytes ch p V M) as (Q & _). rewrite Z0 in Q. lia.
  - exists b'. split; [exact S|]. intros chunks C. rewrite D, E in C. cbn [app] in C. rewrite <- (map_map (fun i => amqp_received (snd i)) EvItem).
    apply (frames_received _ _ _ (map (fun i => wbytes (amqp_frame_enc (snd i))) items)); [|exact C].
    apply Forall2_maps. intros i I. apply amqp_frame_of. now apply H.
Qed.
Lemma sasl_stream md items b : Forall (fun i => 0 <= fst i /\ sasl_sendable (sf_body (snd i))) items -> buf_ok b -> b_data b = [] ->
  exists b', send_all sasl_frame_size sasl_frame_enc items b = Some b' /\
    forall chunks, concat chunks = b_data b' ->
      feed_all sasl_frame_decode md stream_new chunks = (stream_new, map (fun i => EvItem (sasl_received (snd i))) items).
Proof.
  intros H O E. rewrite Forall_forall in H. destruct (send_frames sasl_frame_size sasl_frame_enc items b) as (b' & S & D & _); [|exact O|].
  - intros slack x I. destruct (H _ I) as [H1 H2]. split; [exact H1|]. destruct x as [y]. cbn [fst snd sf_body] in *.
    destruct H2 as (V & _). rewrite (sasl_size_bytes y V). lia.
  - exists b'. split; [exact S|]. intros chunks C. rewrite D, E in C. cbn [app] in C. rewrite <- (map_map (fun i => sasl_received (snd i)) EvItem).
    apply (frames_received _ _ _ (map (fun i => wbytes (sasl_frame_enc (snd i))) items)); [|exact C].
    apply Forall2_maps. intros i I. apply sasl_frame_of. now apply H.
Qed.

(** ** Protocol header *)
Lemma protocol_short src : zlen src < 8 -> protocol_id_decode src = (src, PNone).
Proof. intros L. unfold protocol_id_decode, PROTOCOL_HEADER_LEN. destruct (Z.ltb_spec (zlen src) 8); [reflexivity|lia]. Qed.
Lemma protocol_full a b c d i x y z rest : protocol_id_decode (a :: b :: c :: d :: i :: x :: y :: z :: rest) =
  (rest, if negb (bytes_eqb [a; b; c; d] (s2b "AMQP")) then PErr PIInvalidHeader
         else if negb (bytes_eqb [x; y; z] [1; 0; 0]) then PErr PIIncompatible
         else if i =? 0 then PItem PAmqp else if i =? 2 then PItem PAmqpTls else if i =? 3 then PItem PAmqpSasl else PErr PIUnknown).
Proof.
  unfold protocol_id_decode. change (a :: b :: c :: d :: i :: x :: y :: z :: rest) with ([a; b; c; d; i; x; y; z] ++ rest).
  rewrite zlen_app. change (zlen [a; b; c; d; i; x; y; z]) with 8. unfold PROTOCOL_HEADER_LEN. pose proof (zlen_nonneg rest).
  destruct (Z.ltb_spec (8 + zlen rest) 8); [lia|]. rewrite ztake_app, zdrop_app by reflexivity. reflexivity.
Qed.
Lemma four (l : bytes) : zlen l = 4 -> exists a b c d, l = [a; b; c; d].
Proof.
  intros L. do 4 (destruct l as [|? l]; [cbn in L; lia|]; rewrite zlen_cons in L). destruct l as [|? l]; [repeat eexists|].
  rewrite zlen_cons in L. pose proof (zlen_nonneg l). lia.
Qed.
Lemma three (l : bytes) : zlen l = 3 -> exists a b c, l = [a; b; c].
Proof.
  intros L. do 3 (destruct l as [|? l]; [cbn in L; lia|]; rewrite zlen_cons in L). destruct l as [|? l]; [repeat eexists|].
  rewrite zlen_cons in L. pose proof (zlen_nonneg l). lia.
Qed.
Lemma protocol_cases prefix id version rest : zlen prefix = 4 -> zlen version = 3 ->
  exists out, protocol_id_decode (prefix ++ id :: version ++ rest) = (rest, out) /\
  (prefix <> s2b "AMQP" -> out = PErr PIInvalidHeader) /\
  (prefix = s2b "AMQP" -> version <> [1; 0; 0] -> out = PErr PIIncompatible) /\
  (prefix = s2b "AMQP" -> version = [1; 0; 0] -> (forall p, id <> protocol_number p) -> out = PErr PIUnknown) /\
  (forall p, prefix = s2b "AMQP" -> version = [1; 0; 0] -> id = protocol_number p -> out = PItem p).
Proof.
  intros L1 L2. destruct (four prefix L1) as (a & b & c & d & ->). destruct (three version L2) as (x & y & z & ->). eexists. split; [exact (protocol_full a b c d id x y z rest)|].
  assert (B : forall l r : bytes, l <> r -> bytes_eqb l r = false).
  { intros l r N. destruct (bytes_eqb l r) eqn:E; [|reflexivity]. apply bytes_eqb_eq in E. contradiction. }
  split; [intros N; now rewrite (B _ _ N)|]. split; [intros -> N; rewrite bytes_eqb_refl, (B _ _ N); reflexivity|]. split.
  - intros -> -> N. rewrite !bytes_eqb_refl. cbn [negb]. pose proof (N PAmqp) as N0. pose proof (N PAmqpTls) as N2. pose proof (N PAmqpSasl) as N3. cbn in N0, N2, N3.
    destruct (Z.eqb_spec id 0), (Z.eqb_spec id 2), (Z.eqb_spec id 3); try lia. reflexivity.
  - intros p -> -> ->. rewrite !bytes_eqb_refl. now destruct p.
Qed.
Lemma protocol_accepts p rest : protocol_id_decode (protocol_header p ++ rest) = (rest, PItem p).
Proof.
  destruct (protocol_cases (s2b "AMQP") (protocol_number p) [1; 0; 0] rest eq_refl eq_refl) as (out & E & _ & _ & _ & K).
  specialize (K p eq_refl eq_refl eq_refl). subst out. exact E.
Qed.
Lemma protocol_only src rest p : protocol_id_decode src = (rest, PItem p) -> src = protocol_header p ++ rest.
Proof.
  intros E. destruct (Z_lt_ge_dec (zlen src) 8) as [L|L]; [rewrite protocol_short in E by exact L; discriminate|].
  do 8 (destruct src as [|? src]; [cbn in L; lia|]). rewrite protocol_full in E. destruct (bytes_eqb [_; _; _; _] _) eqn:P; [|discriminate].
  apply bytes_eqb_eq in P. injection P as -> -> -> ->. cbn [negb] in E. destruct (bytes_eqb [_; _; _] _) eqn:V; [|discriminate].
  apply bytes_eqb_eq in V. injection V as -> -> ->. cbn [negb] in E.
  destruct (Z.eqb_spec z3 0) as [->|]; [now injection E as <- <-|]. destruct (Z.eqb_spec z3 2) as [->|]; [now injection E as <- <-|].
  destruct (Z.eqb_spec z3 3) as [->|]; [now injection E as <- <-|discriminate].
Qed.
Lemma protocol_sent slack p b : 0 <= slack -> buf_ok b ->
  exists b', protocol_id_encode slack p b = Some b' /\ b_data b' = b_data b ++ protocol_header p /\ buf_ok b'.
Proof.
  intros S O. unfold protocol_id_encode. assert (E : wbytes (protocol_id_ops p) = protocol_header p) by (now destruct p).
  set (b1 := reserve slack PROTOCOL_HEADER_LEN b). assert (H : b_data b1 = b_data b /\ 8 <= remaining_mut b1).
  { unfold b1, reserve, PROTOCOL_HEADER_LEN. destruct (Z.leb_spec 8 (remaining_mut b)); [split; [reflexivity|lia]|].
    split; [reflexivity|]. unfold remaining_mut. cbn [b_cap b_data]. lia. }
  destruct H as [H1 H2]. assert (L : zlen (wbytes (protocol_id_ops p)) = 8) by (rewrite E; now destruct p).
  rewrite run_ops_room by lia. eexists. split; [reflexivity|]. cbn [b_data]. rewrite H1, E. split; [reflexivity|].
  unfold buf_ok. cbn [b_cap b_data]. rewrite E in L. rewrite zlen_app, L. unfold remaining_mut in H2. rewrite H1 in H2. lia.
Qed.

(** ** Statements *)
Lemma never_recovers md body bs e m tl : framed body bs -> 4 <= zlen body -> amqp_frame_decode md body = Err e -> 0 <= m < 2 ^ 24 ->
  amqp_codec_decode amqp_frame_decode md FrameHeader (bs ++ be4 m ++ tl) = (Frame (zlen body), be4 m ++ tl, DErr (CParse e)) /\
  forall st src x, amqp_codec_decode amqp_frame_decode md (Frame (zlen body)) (be4 m ++ tl) <> (st, src, DItem x).
Proof.
  intros F L E M. split.
  - apply error_state; [exact F| |exact E]. destruct (framed_head body bs (be4 m ++ tl) F) as (_ & _ & _ & ->).
    rewrite zlen_app, zlen_be4. pose proof (zlen_nonneg tl). lia.
  - intros st src x. destruct (amqp_misread md (zlen body) m tl M L) as [[e' ->]| ->]; discriminate.
Qed.
Lemma sasl_never_recovers md body bs e m tl : framed body bs -> 4 <= zlen body -> sasl_frame_decode md body = Err e -> 0 <= m < 2 ^ 24 ->
  amqp_codec_decode sasl_frame_decode md FrameHeader (bs ++ be4 m ++ tl) = (Frame (zlen body), be4 m ++ tl, DErr (CParse e)) /\
  forall st src x, amqp_codec_decode sasl_frame_decode md (Frame (zlen body)) (be4 m ++ tl) <> (st, src, DItem x).
Proof.
  intros F L E M. split.
  - apply error_state; [exact F| |exact E]. destruct (framed_head body bs (be4 m ++ tl) F) as (_ & _ & _ & ->).
    rewrite zlen_app, zlen_be4. pose proof (zlen_nonneg tl). lia.
  - intros st src x. destruct (sasl_misread md (zlen body) m tl M L) as [[e' ->]| ->]; discriminate.
Qed.
Lemma four_stuck md src : amqp_codec_decode amqp_frame_decode md (Frame 0) src = (Frame 0, src, DErr (CParse (EIncomplete (Some 4)))) /\
  amqp_codec_decode sasl_frame_decode md (Frame 0) src = (Frame 0, src, DErr (CParse (EIncomplete (Some 4)))).
Proof. split; apply stuck; reflexivity. Qed.
Lemma recovery_refuted : exists bad good x e, (forall md, amqp_frame_decode md (zdrop 4 bad) = Err e) /\ framed (zdrop 4 bad) bad /\
  (forall md, frame_of amqp_frame_decode md x good) /\
  (forall md, amqp_codec_decode amqp_frame_decode md FrameHeader (bad ++ good) = (Frame 8, good, DErr (CParse e))) /\
  (forall md, amqp_codec_decode amqp_frame_decode md (Frame 8) good = (Frame 8, zdrop 8 good, DErr (CParse EInvalidSize))).
Proof.
  exists [0; 0; 0; 12; 2; 0; 0; 0; 0; 0x53; 0x99; 0x45], [0; 0; 0; 12; 2; 0; 0; 0; 0; 0x53; 0x18; 0x45], (MkAmqpFrame 0 (FR_Close (MkClose None))),
    (EInvalidDescriptor (DUlong 0x99)).
  split; [intros []; vm_compute; reflexivity|]. split; [split; vm_compute; reflexivity|]. split.
  - intros md. exists [2; 0; 0; 0; 0; 0x53; 0x18; 0x45]. split; [split; vm_compute; reflexivity|]. split; [vm_compute; discriminate|].
    destruct md; vm_compute; reflexivity.
  - split; intros []; vm_compute; reflexivity.
Qed.
Lemma trailing_bytes md ch ext hdr p pb junk bs rest : wire_header 0 ch ext hdr -> wire_frame p pb -> frame_decodable p -> ~ takes_rest p ->
  junk <> [] -> framed (hdr ++ pb ++ junk) bs ->
  amqp_codec_decode amqp_frame_decode md FrameHeader (bs ++ rest) = (Frame (zlen (hdr ++ pb ++ junk)), rest, DErr CUnparsedBytesLeft).
Proof.
  intros H W Dc N J F. assert (L : 4 <= zlen (hdr ++ pb ++ junk)).
  { rewrite zlen_app. inversion H; subst. rewrite !zlen_cons, zlen_app, zlen_be2. pose proof (zlen_nonneg ext). pose proof (zlen_nonneg (pb ++ junk)). lia. }
  rewrite (codec_frame _ md _ bs rest F), arm_body.
  - rewrite (amqp_accepts md ch ext hdr p pb junk H W Dc) by (intros K; contradiction). destruct junk; [easy|reflexivity].
  - destruct (framed_head _ bs rest F) as (_ & _ & _ & ->). pose proof (zlen_nonneg rest). lia.
Qed.
Lemma stale_valid l : variant_ok (VList l) -> frame_valid (stale_transfer l).
Proof. intros H. cbn. repeat split; try lia; try exact H; repeat constructor. Qed.
Lemma repeat_valid n : variant_ok (VList (repeat (VUbyte 7) n)).
Proof. cbn [variant_ok]. induction n as [|n IH]; [exact I|]. cbn [repeat all_prop]. split; [cbn; unfold u8_ok; lia|exact IH]. Qed.
Lemma stale_overrun : exists l, frame_valid (stale_transfer l) /\
  amqp_codec_encode 0 (amqp_frame_size (MkAmqpFrame 0 (stale_transfer l))) (amqp_frame_enc (MkAmqpFrame 0 (stale_transfer l))) (MkBuf 4096 []) = None.
Proof.
  exists (repeat (VUbyte 7) (Z.to_nat 2100)). split; [apply stale_valid, repeat_valid|]. vm_compute. reflexivity.
Qed.
