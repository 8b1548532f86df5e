(** Lemmas about the buffer of the receiving side. *)

From Coq Require Import String.
From Verif Require Import Reserve ReserveSpec ReserveFacts Io BaseFacts Utf8Spec Valid Wire TypeSpec CompositeSpec AllTypes CodecSpec MessageSpec FrameSpec StreamSpec PrimFacts StreamFacts ConnectionFacts VariantFacts Room RoomSpec.
Open Scope string_scope.
Open Scope list_scope.
Open Scope Z_scope.

Lemma room_asked_app a b : room_asked (a ++ b) = room_asked a ++ room_asked b.
Proof. induction a as [|[n|x] a IH]; cbn [room_asked app]; [reflexivity | rewrite IH; reflexivity | exact IH]. Qed.
Lemma decoded_app a b : handed (a ++ b) = handed a ++ handed b.
Proof. induction a as [|[n|x] a IH]; cbn [handed app]; [reflexivity | exact IH | rewrite IH; reflexivity]. Qed.

Section Room.
Context {T : Type} (D : mode -> bytes -> res (bytes * T)) (slack : Z) (md : mode).

(** ** The same as without the room *)
Lemma reserve_data n b : b_data (reserve slack n b) = b_data b.
Proof. unfold reserve. destruct (n <=? remaining_mut b); reflexivity. Qed.
Lemma arrive_data chunk b : b_data (append (reserve slack (zlen chunk) b) chunk) = b_data b ++ chunk.
Proof. unfold append. cbn [b_data]. rewrite reserve_data. reflexivity. Qed.
Lemma arm_same size src : let '(st, b, out, _) := room_frame_arm D slack md size src in decode_frame_arm D md size (b_data src) = (st, b_data b, out).
Proof.
  unfold room_frame_arm, decode_frame_arm, split_to. destruct (zlen (b_data src) <? size); [reflexivity|].
  destruct (D md (ztake size (b_data src))) as [[[|x r] v]|e|p|]; reflexivity.
Qed.
Lemma decode_same st src : let '(st', b, out, _) := room_decode D slack md st src in amqp_codec_decode D md st (b_data src) = (st', b_data b, out).
Proof.
  destruct st as [|n]; [|exact (arm_same n src)]. unfold room_decode, amqp_codec_decode.
  destruct (zlen (b_data src) <? HEADER_LEN); [reflexivity|]. destruct (usub md 64 (be_val (ztake 4 (b_data src))) 4) as [n|e|p|]; try reflexivity.
  unfold split_to at 1. destruct (zlen (b_data src) <? be_val (ztake 4 (b_data src))).
  - destruct (remaining_mut _ <? _); rewrite ?reserve_data; reflexivity.
  - apply (arm_same n (MkBuf _ _)).
Qed.
Lemma drain_same fuel : forall st src, let '(s, evs, _) := room_drain D slack fuel md st src in drain D fuel md st (b_data src) = (contents s, evs).
Proof.
  induction fuel as [|f IH]; intros st src; cbn [room_drain drain]; [reflexivity|].
  pose proof (decode_same st src) as E. destruct (room_decode D slack md st src) as [[[st' b] out] notes]. rewrite E.
  destruct out as [|x|e|p|]; try reflexivity. specialize (IH st' b). destruct (room_drain D slack f md st' b) as [[s evs] more]. rewrite IH. reflexivity.
Qed.
Lemma feed_same s chunk : let '(s', evs, _) := room_feed D slack md s chunk in feed D md (contents s) chunk = (contents s', evs).
Proof.
  destruct s as [st src|]; [|reflexivity]. unfold room_feed, feed, contents at 1.
  pose proof (drain_same (2 + length (b_data src ++ chunk)) st (append (reserve slack (zlen chunk) src) chunk)) as E. rewrite arrive_data in E. exact E.
Qed.
Lemma feed_all_same chunks : forall s, let '(s', evs, _) := room_feed_all D slack md s chunks in feed_all D md (contents s) chunks = (contents s', evs).
Proof.
  induction chunks as [|c r IH]; intros s; cbn [room_feed_all feed_all]; [reflexivity|].
  pose proof (feed_same s c) as E. destruct (room_feed D slack md s c) as [[s1 e1] n1]. rewrite E. specialize (IH s1).
  destruct (room_feed_all D slack md s1 r) as [[s2 e2] n2]. rewrite IH. reflexivity.
Qed.

(** ** What is asked for *)
Definition waiting (st : decode_state) : nat := match st with FrameHeader => 0 | Frame _ => 1 end.
Definition waiting_room (s : room_state) : nat := match s with RLive st _ => waiting st | RDead => 1 end.
Lemma arm_asks size src : let '(st, _, out, notes) := room_frame_arm D slack md size src in room_asked notes = [] /\
  (length (handed notes) + waiting st >= 1)%nat.
Proof.
  unfold room_frame_arm, split_to. destruct (zlen (b_data src) <? size); [split; [reflexivity | cbn; lia]|].
  destruct (D md (ztake size (b_data src))) as [[[|x r] v]|e|p|]; split; try reflexivity; cbn; lia.
Qed.
Lemma decode_asks st src : let '(st', _, out, notes) := room_decode D slack md st src in Forall (fun n => n = 32768) (room_asked notes) /\
  (length (room_asked notes) + waiting st <= length (handed notes) + waiting st')%nat.
Proof.
  destruct st as [|n]; cbn [room_decode].
  - destruct (zlen (b_data src) <? HEADER_LEN); [split; [constructor | cbn; lia]|].
    destruct (usub md 64 (be_val (ztake 4 (b_data src))) 4) as [n|e|p|]; try (split; [constructor | cbn; lia]).
    unfold split_to at 1. destruct (zlen (b_data src) <? be_val (ztake 4 (b_data src))).
    + destruct (remaining_mut _ <? _); (split; [repeat constructor | cbn; lia]).
    + pose proof (arm_asks n (MkBuf (b_cap src - 4 + slack) (zdrop 4 (b_data src)))) as A.
      destruct (room_frame_arm _ _ _ _ _) as [[[st' b] out] notes]. destruct A as [-> A]. split; [constructor | cbn [length waiting]; lia].
  - pose proof (arm_asks n src) as A. destruct (room_frame_arm _ _ _ _ _) as [[[st' b] out] notes]. destruct A as [-> A]. split; [constructor | cbn [length waiting]; lia].
Qed.
Lemma waiting_le st : (waiting st <= 1)%nat.
Proof. destruct st; cbn; lia. Qed.
Lemma drain_asks fuel : forall st src, let '(s, _, notes) := room_drain D slack fuel md st src in Forall (fun n => n = 32768) (room_asked notes) /\
  (length (room_asked notes) + waiting st <= length (handed notes) + waiting_room s)%nat.
Proof.
  induction fuel as [|f IH]; intros st src; cbn [room_drain].
  - split; [constructor|]. pose proof (waiting_le st). cbn. lia.
  - pose proof (decode_asks st src) as A. destruct (room_decode D slack md st src) as [[[st' b] out] notes]. destruct A as [A1 A2].
    pose proof (waiting_le st') as W. destruct out as [|x|e|p|]; cbn [waiting_room]; try (split; [exact A1 | lia]).
    specialize (IH st' b). destruct (room_drain D slack f md st' b) as [[s evs] more]. destruct IH as [B1 B2].
    rewrite room_asked_app, decoded_app, !app_length. split; [apply Forall_app; split; assumption | lia].
Qed.
Lemma feed_all_asks chunks : forall s, let '(s', _, notes) := room_feed_all D slack md s chunks in Forall (fun n => n = 32768) (room_asked notes) /\
  (length (room_asked notes) + waiting_room s <= length (handed notes) + waiting_room s')%nat.
Proof.
  induction chunks as [|c r IH]; intros s; cbn [room_feed_all]; [split; [constructor | cbn; lia]|].
  assert (A : let '(s1, _, n1) := room_feed D slack md s c in Forall (fun n => n = 32768) (room_asked n1) /\
    (length (room_asked n1) + waiting_room s <= length (handed n1) + waiting_room s1)%nat).
  { destruct s as [st src|]; [|split; [constructor | cbn; lia]]. exact (drain_asks _ st _). }
  destruct (room_feed D slack md s c) as [[s1 e1] n1]. specialize (IH s1). destruct (room_feed_all D slack md s1 r) as [[s2 e2] n2].
  destruct A as [A1 A2], IH as [B1 B2]. rewrite room_asked_app, decoded_app, !app_length. split; [apply Forall_app; split; assumption | lia].
Qed.

(** ** What is handed to the decoder of frames *)
Definition pending (st : decode_state) (hd : bytes) : Prop :=
  match st with
  | FrameHeader => hd = []
  | Frame n => (hd = be4 (4 + n) /\ 0 <= n) \/ (zlen hd = 4 /\ 2 ^ 63 <= n)
  end.
Definition goes_on (out : dout T) : Prop := match out with DNone | DItem _ => True | _ => False end.
Lemma arm_decoded size src hd : pending (Frame size) hd -> zlen (b_data src) < 2 ^ 63 ->
  let '(st, b, out, notes) := room_frame_arm D slack md size src in exists hd',
  hd ++ b_data src = concat (map with_length (handed notes)) ++ hd' ++ b_data b /\ (goes_on out -> pending st hd') /\ zlen (b_data b) <= zlen (b_data src).
Proof.
  intros P L. unfold room_frame_arm. destruct (Z.ltb_spec (zlen (b_data src)) size) as [H|H].
  - exists hd. cbn. split; [reflexivity|]. split; [intros _; exact P | lia].
  - destruct P as [[-> N]|[_ N]]; [|lia]. unfold split_to.
    assert (Z1 : zlen (ztake size (b_data src)) = size) by (apply zlen_ztake; lia).
    assert (Z2 : be4 (4 + size) ++ b_data src = concat (map with_length [ztake size (b_data src)]) ++ [] ++ zdrop size (b_data src)).
    { cbn [map concat app]. unfold with_length. rewrite Z1, app_nil_r, <- app_assoc, ztake_zdrop. reflexivity. }
    assert (Z3 : zlen (zdrop size (b_data src)) <= zlen (b_data src)).
    { pose proof (f_equal zlen (ztake_zdrop size (b_data src))) as E. rewrite zlen_app in E. pose proof (zlen_nonneg (ztake size (b_data src))). lia. }
    destruct (D md (ztake size (b_data src))) as [[[|x r] v]|e|p|]; cbn [handed b_data]; exists []; (split; [exact Z2|]);
      (split; [intros G; first [reflexivity | contradiction] | exact Z3]).
Qed.
Lemma decode_decoded st src hd : pending st hd -> bytes_ok (b_data src) -> zlen (b_data src) < 2 ^ 63 ->
  let '(st', b, out, notes) := room_decode D slack md st src in exists hd',
  hd ++ b_data src = concat (map with_length (handed notes)) ++ hd' ++ b_data b /\ (goes_on out -> pending st' hd') /\ zlen (b_data b) <= zlen (b_data src).
Proof.
  intros P B L. destruct st as [|n]; [|exact (arm_decoded n src hd P L)]. cbn [pending] in P. subst hd. cbn [room_decode app].
  destruct (Z.ltb_spec (zlen (b_data src)) HEADER_LEN) as [H|H].
  { exists []. cbn. repeat split. lia. }
  unfold HEADER_LEN in H.
  set (size := be_val (ztake 4 (b_data src))).
  assert (Z1 : zlen (ztake 4 (b_data src)) = 4) by (apply zlen_ztake; lia).
  assert (E : b_data src = ztake 4 (b_data src) ++ zdrop 4 (b_data src)) by (symmetry; apply ztake_zdrop).
  assert (Z2 : zlen (zdrop 4 (b_data src)) <= zlen (b_data src)).
  { pose proof (f_equal zlen E) as E'. rewrite zlen_app in E'. lia. }
  destruct (usub md 64 size 4) as [n|e|p|] eqn:U; try (exists []; cbn [handed map concat app]; split; [reflexivity | split; [intros []|lia]]).
  assert (P : pending (Frame n) (ztake 4 (b_data src))).
  { assert (Bt : bytes_ok (ztake 4 (b_data src))) by (rewrite E in B; apply Forall_app in B; tauto).
    assert (S : 0 <= size < 2 ^ 32) by (unfold size; pose proof (be_val_range _ Bt) as Q; rewrite Z1 in Q; exact Q).
    unfold usub in U. destruct (Z.ltb_spec size 4) as [Q|Q].
    - destruct md; [discriminate U|]. injection U as <-. right. split; [exact Z1|].
      replace ((size - 4) mod 2 ^ 64) with (2 ^ 64 + (size - 4)); [lia|].
      rewrite <- (Z.mod_small (2 ^ 64 + (size - 4)) (2 ^ 64)) at 1 by lia. rewrite <- (Z.mul_1_l (2 ^ 64)) at 1.
      rewrite Z.add_comm, Z_mod_plus_full. reflexivity.
    - injection U as <-. left. split; [|lia]. replace (4 + (size - 4)) with size by lia. unfold size. rewrite <- be_bytes_be4, <- (be_bytes_be_val _ Bt) at 1. f_equal. unfold zlen in Z1. lia. }
  unfold split_to at 1. destruct (zlen (b_data src) <? size).
  - destruct (remaining_mut _ <? _); exists (ztake 4 (b_data src)); rewrite ?reserve_data; cbn [handed map concat app b_data];
      (split; [exact E | split; [intros _; exact P | exact Z2]]).
  - pose proof (arm_decoded n (MkBuf (b_cap src - 4 + slack) (zdrop 4 (b_data src))) _ P) as A. cbn [b_data] in A. specialize (A ltac:(lia)).
    destruct (room_frame_arm _ _ _ _ _) as [[[st' b] out] notes]. destruct A as [hd' [A1 [A2 A3]]]. exists hd'.
    rewrite <- E in A1. split; [exact A1 | split; [exact A2 | lia]].
Qed.

Lemma drain_decoded fuel : forall st src hd, pending st hd -> bytes_ok (hd ++ b_data src) -> zlen (b_data src) < 2 ^ 63 ->
  let '(s, _, notes) := room_drain D slack fuel md st src in
  match s with
  | RLive st' b => exists hd', hd ++ b_data src = concat (map with_length (handed notes)) ++ hd' ++ b_data b /\ pending st' hd' /\ zlen (b_data b) <= zlen (b_data src)
  | RDead => exists rest, hd ++ b_data src = concat (map with_length (handed notes)) ++ rest
  end.
Proof.
  induction fuel as [|f IH]; intros st src hd P B L; cbn [room_drain]; [exists (hd ++ b_data src); reflexivity|].
  assert (Bs : bytes_ok (b_data src)) by (apply Forall_app in B; tauto).
  pose proof (decode_decoded st src hd P Bs L) as A. destruct (room_decode D slack md st src) as [[[st' b] out] notes].
  destruct A as [hd' [A1 [A2 A3]]]. destruct out as [|x|e|p|]; try (eexists; exact A1).
  - exists hd'. split; [exact A1 | split; [exact (A2 I) | exact A3]].
  - assert (B' : bytes_ok (hd' ++ b_data b)) by (rewrite A1 in B; apply Forall_app in B; tauto).
    specialize (IH st' b hd' (A2 I) B' ltac:(lia)). destruct (room_drain D slack f md st' b) as [[s evs] more].
    destruct s as [st2 b2|].
    + destruct IH as [hd2 [C1 [C2 C3]]]. exists hd2. rewrite decoded_app, map_app, concat_app, <- app_assoc, <- C1. split; [exact A1 | split; [exact C2 | lia]].
    + destruct IH as [rest C1]. exists rest. rewrite decoded_app, map_app, concat_app, <- app_assoc, <- C1. exact A1.
Qed.
Lemma feed_all_decoded chunks : forall st src hd, pending st hd -> bytes_ok (hd ++ b_data src ++ concat chunks) -> zlen (b_data src ++ concat chunks) < 2 ^ 63 ->
  let '(s, _, notes) := room_feed_all D slack md (RLive st src) chunks in
  exists rest, hd ++ b_data src ++ concat chunks = concat (map with_length (handed notes)) ++ rest /\
    match s with RLive st' b => exists hd', rest = hd' ++ b_data b /\ pending st' hd' | RDead => True end.
Proof.
  induction chunks as [|c r IH]; intros st src hd P B L; cbn [room_feed_all concat] in *.
  - cbn [handed map concat app]. rewrite app_nil_r in *. exists (hd ++ b_data src). split; [reflexivity|]. exists hd. split; [reflexivity | exact P].
  - assert (Q : hd ++ b_data src ++ c ++ concat r = (hd ++ b_data src ++ c) ++ concat r) by (rewrite <- !app_assoc; reflexivity).
    rewrite Q in *. rewrite app_assoc in L.
    assert (B1 : bytes_ok (hd ++ b_data src ++ c)) by (apply Forall_app in B; tauto).
    assert (L1 : zlen (b_data src ++ c) < 2 ^ 63) by (rewrite zlen_app in L; pose proof (zlen_nonneg (concat r)); lia).
    rewrite <- arrive_data in B1, L1.
    pose proof (drain_decoded (2 + length (b_data src ++ c)) st _ hd P B1 L1) as A. rewrite arrive_data in A. cbn [room_feed].
    destruct (room_drain _ _ _ _ _ _) as [[s1 e1] n1]. destruct s1 as [st1 b1|].
    + destruct A as [hd1 [A1 [A2 A3]]].
      assert (B2 : bytes_ok (hd1 ++ b_data b1 ++ concat r)).
      { rewrite A1 in B. rewrite <- !app_assoc in B. apply Forall_app in B. tauto. }
      assert (L2 : zlen (b_data b1 ++ concat r) < 2 ^ 63) by (rewrite !zlen_app in *; lia).
      specialize (IH st1 b1 hd1 A2 B2 L2). destruct (room_feed_all D slack md (RLive st1 b1) r) as [[s2 e2] n2].
      destruct IH as [rest [C1 C2]]. exists rest. split; [|exact C2]. rewrite decoded_app, map_app, concat_app, A1, <- !app_assoc, C1. reflexivity.
    + assert (Z : room_feed_all D slack md RDead r = (RDead, [], [])).
      { clear. induction r as [|c r IH]; cbn [room_feed_all room_feed]; [reflexivity | rewrite IH; reflexivity]. }
      rewrite Z. destruct A as [rest A1]. exists (rest ++ concat r). split; [|exact I]. rewrite app_nil_r, A1, <- app_assoc. reflexivity.
Qed.

(** ** What is held *)
Lemma decode_holds st src st' src' : amqp_codec_decode D md st src = (st', src', DNone) -> bytes_ok src -> zlen src < 2 ^ 63 -> holds_little (SLive st' src').
Proof.
  assert (A : forall n src st' src', decode_frame_arm D md n src = (st', src', DNone) -> holds_little (SLive st' src')).
  { clear. intros n src st' src'. unfold decode_frame_arm. destruct (Z.ltb_spec (zlen src) n) as [H|H].
    - intros [= <- <-]. exact H.
    - destruct (D md (ztake n src)) as [[[|x r] v]|e|p|]; discriminate. }
  intros E B L. destruct st as [|n]; [|exact (A _ _ _ _ E)]. unfold amqp_codec_decode in E. destruct (Z.ltb_spec (zlen src) HEADER_LEN) as [H|H].
  - injection E as <- <-. exact H.
  - destruct (usub md 64 (be_val (ztake 4 src)) 4) as [n|e|p|] eqn:U; try discriminate E.
    destruct (Z.ltb_spec (zlen src) (be_val (ztake 4 src))) as [Q|Q]; [|exact (A _ _ _ _ E)]. injection E as <- <-.
    unfold HEADER_LEN in H. unfold usub in U. destruct (Z.ltb_spec (be_val (ztake 4 src)) 4); [lia|]. injection U as <-.
    cbn [holds_little]. pose proof (f_equal zlen (ztake_zdrop 4 src)) as Z. rewrite zlen_app in Z. rewrite (zlen_ztake 4 src) in Z by lia. lia.
Qed.
Lemma drain_holds fuel : forall st src, bytes_ok src -> zlen src < 2 ^ 63 -> holds_little (fst (drain D fuel md st src)).
Proof.
  induction fuel as [|f IH]; intros st src B L; cbn [drain]; [exact I|].
  destruct (amqp_codec_decode D md st src) as [[st' src'] out] eqn:E. destruct out as [|x|e|p|]; try exact I.
  - exact (decode_holds _ _ _ _ E B L).
  - assert (S : exists pre, src = pre ++ src').
    { clear - E. assert (A : forall n src st' src', decode_frame_arm D md n src = (st', src', DItem x) -> exists pre, src = pre ++ src').
      { clear. intros n src st' src'. unfold decode_frame_arm. destruct (zlen src <? n); [discriminate|].
        destruct (D md (ztake n src)) as [[[|y r] v]|e|p|]; try discriminate. intros [= _ <- _]. exists (ztake n src). symmetry. apply ztake_zdrop. }
      destruct st as [|n]; [|exact (A _ _ _ _ E)]. unfold amqp_codec_decode in E. destruct (zlen src <? HEADER_LEN); [discriminate E|].
      destruct (usub md 64 (be_val (ztake 4 src)) 4) as [n|e|p|]; try discriminate E. destruct (zlen src <? be_val (ztake 4 src)); [discriminate E|].
      destruct (A _ _ _ _ E) as [pre Q]. exists (ztake 4 src ++ pre). rewrite <- app_assoc, <- Q. symmetry. apply ztake_zdrop. }
    destruct S as [pre ->]. specialize (IH st' src'). destruct (drain D f md st' src') as [s evs]. apply IH.
    + apply Forall_app in B. tauto.
    + rewrite zlen_app in L. pose proof (zlen_nonneg pre). lia.
Qed.
End Room.

(** ** The claims *)
Lemma stream_holds T (D : mode -> bytes -> res (bytes * T)) md chunks : bytes_ok (concat chunks) -> zlen (concat chunks) < 2 ^ 63 ->
  holds_little (fst (feed_all D md stream_new chunks)).
Proof. intros B L. rewrite feed_all_concat. unfold stream_new, feed. cbn [app]. apply (drain_holds D 0 md); [exact B | exact L]. Qed.
Lemma room_same T (D : mode -> bytes -> res (bytes * T)) slack cap md chunks : let '(s, evs, _) := room_feed_all D slack md (room_new cap) chunks in
  feed_all D md stream_new chunks = (contents s, evs).
Proof. exact (feed_all_same D slack md chunks (room_new cap)). Qed.
Lemma room_asks T (D : mode -> bytes -> res (bytes * T)) slack cap md chunks s evs notes :
  room_feed_all D slack md (room_new cap) chunks = (s, evs, notes) ->
  Forall (fun n => n = 32768) (room_asked notes) /\ (length (room_asked notes) <= length (handed notes) + 1)%nat.
Proof.
  intros E. pose proof (feed_all_asks D slack md chunks (room_new cap)) as A. rewrite E in A. destruct A as [A1 A2]. split; [exact A1|].
  cbn in A2. assert (waiting_room s <= 1)%nat by (destruct s as [[|n] b|]; cbn; lia). lia.
Qed.
Lemma room_decoded T (D : mode -> bytes -> res (bytes * T)) slack cap md chunks s evs notes : bytes_ok (concat chunks) -> zlen (concat chunks) < 2 ^ 63 ->
  room_feed_all D slack md (room_new cap) chunks = (s, evs, notes) ->
  exists rest, concat chunks = concat (map with_length (handed notes)) ++ rest.
Proof.
  intros B L E. pose proof (feed_all_decoded D slack md chunks amqp_codec_new (MkBuf cap []) [] eq_refl B L) as A. unfold room_new in E. rewrite E in A.
  destruct A as [rest [A _]]. exists rest. exact A.
Qed.
Lemma room_after_header T (D : mode -> bytes -> res (bytes * T)) slack md cap n part st b notes : 0 <= slack -> zlen (be4 n ++ part) <= cap ->
  4 <= zlen part -> 4 + zlen part < n < 2 ^ 32 ->
  room_decode D slack md FrameHeader (MkBuf cap (be4 n ++ part)) = (st, b, DNone, notes) ->
  st = Frame (n - 4) /\ b_data b = part /\ Z.min (Z.max 4096 (n + 8)) 32768 <= remaining_mut b.
Proof.
  intros S C L N E. pose proof (decode_same D slack md FrameHeader (MkBuf cap (be4 n ++ part))) as A. rewrite E in A. cbn [b_data] in A.
  rewrite frame_fresh_none in A by lia. injection A as A1 A2. split; [symmetry; exact A1|]. split; [symmetry; exact A2|].
  rewrite zlen_app, zlen_be4 in C. unfold room_decode in E. cbn [b_data] in E. rewrite (ztake_app 4) in E by reflexivity. rewrite be_val_be4 in E by lia.
  rewrite zlen_app, zlen_be4 in E. unfold HEADER_LEN in E. destruct (Z.ltb_spec (4 + zlen part) 8); [lia|].
  unfold usub in E. destruct (Z.ltb_spec n 4); [lia|]. unfold split_to in E. cbn [b_data b_cap] in E. rewrite (zdrop_app 4) in E by reflexivity.
  destruct (Z.ltb_spec (4 + zlen part) n); [|lia]. unfold SIZE_LOW_WM, SIZE_HIGH_WM in E.
  match type of E with context [Z.ltb ?a ?b] => destruct (Z.ltb_spec a b) as [Q|Q] end; injection E as _ <- _.
  - unfold reserve. match goal with |- context [Z.leb ?a ?b] => destruct (Z.leb_spec a b) as [R|R] end; [lia|].
    unfold remaining_mut. cbn [b_cap b_data]. lia.
  - lia.
Qed.
Lemma room_fits T (D : mode -> bytes -> res (bytes * T)) slack md cap n part st b notes : 0 <= slack -> zlen (be4 n ++ part) <= cap ->
  4 <= zlen part -> 4 + zlen part < n -> n <= 32772 + zlen part -> n < 2 ^ 32 ->
  room_decode D slack md FrameHeader (MkBuf cap (be4 n ++ part)) = (st, b, DNone, notes) -> (n - 4) - zlen (b_data b) <= remaining_mut b.
Proof.
  intros S C L N M H E. destruct (room_after_header T D slack md cap n part st b notes S C L ltac:(lia) E) as [_ [-> R]]. lia.
Qed.
Lemma unlimited T (D : mode -> bytes -> res (bytes * T)) md n part chunks : 4 <= zlen part -> 4 + zlen part < n < 2 ^ 32 ->
  concat chunks = be4 n ++ part -> feed_all D md stream_new chunks = (SLive (Frame (n - 4)) part, []).
Proof.
  intros L N E. rewrite feed_all_concat, E. unfold stream_new, feed. cbn [app]. cbn [Nat.add drain]. unfold amqp_codec_new. rewrite frame_fresh_none by lia. reflexivity.
Qed.
Lemma short_of_room md : exists b, room_decode amqp_frame_decode 0 md FrameHeader (MkBuf 8 (be4 65536 ++ [2; 0; 0; 0])) = (Frame 65532, b, DNone, [Asked 32768]) /\
  b_data b = [2; 0; 0; 0] /\ remaining_mut b = 32768.
Proof. eexists. split; [destruct md; vm_compute; reflexivity|]. split; vm_compute; reflexivity. Qed.

(** ** The work for a stream *)
Lemma decoded_work (f : bytes -> Z) : (forall b, bytes_ok b -> f b <= zlen b + 1) -> forall l rest, bytes_ok (concat (map with_length l) ++ rest) ->
  zsum f l <= zlen (concat (map with_length l) ++ rest).
Proof.
  intros F l rest. induction l as [|b l IH]; cbn [map concat zsum]; intros B; [cbn [app]; pose proof (zlen_nonneg rest); lia|].
  rewrite <- app_assoc in *. apply Forall_app in B as [B1 B2]. specialize (IH B2). rewrite zlen_app. unfold with_length at 1. rewrite zlen_app, zlen_be4.
  unfold with_length in B1. apply Forall_app in B1 as [_ B1]. specialize (F b B1). lia.
Qed.
Lemma room_work R slack cap md chunks s evs notes : frame_runs wide_element frame_alts R -> bytes_ok (concat chunks) -> zlen (concat chunks) < 2 ^ 63 ->
  room_feed_all amqp_frame_decode slack md (room_new cap) chunks = (s, evs, notes) ->
  zsum (fun body => begun (amqp_frame_run R md body)) (handed notes) <= zlen (concat chunks).
Proof.
  intros HR B L E. destruct (room_decoded _ amqp_frame_decode slack cap md chunks s evs notes B L E) as [rest Q]. rewrite Q in *.
  apply decoded_work; [|exact B]. intros b Hb. exact (work_frame R HR md b Hb).
Qed.
Lemma room_work_sasl D slack cap md chunks s evs notes : runs wide_element sasl_frame_body_S D -> bytes_ok (concat chunks) -> zlen (concat chunks) < 2 ^ 63 ->
  room_feed_all sasl_frame_decode slack md (room_new cap) chunks = (s, evs, notes) ->
  zsum (fun body => begun (sasl_frame_run D md body)) (handed notes) <= zlen (concat chunks).
Proof.
  intros HR B L E. destruct (room_decoded _ sasl_frame_decode slack cap md chunks s evs notes B L E) as [rest Q]. rewrite Q in *.
  apply decoded_work; [|exact B]. intros b Hb. exact (work_sasl D HR md b Hb).
Qed.

Lemma frame_work_example : exists R, frame_runs wide_element frame_alts R /\ begun (amqp_frame_run R Debug [2; 0; 0; 0; 0x00; 0x53; 0x18; 0x45]) = 2.
Proof.
  pose proof wide_allows as HE. unfold frame_alts. eexists. split.
  { repeat (first [exact (frs_nil _)|eapply frs_cons; [cbn [a_D]; lazymatch goal with
      | |- performative_runs _ (composite_D ?K) _ => eapply pr_composite; [listed|eapply ir_composite; [listed|unfold K; cbn [k_fields]; run_f]]
      | |- performative_runs _ transfer_D _ => eapply pr_transfer; unfold transfer_table; run_f
      end|]]). }
  vm_compute; reflexivity.
Qed.
