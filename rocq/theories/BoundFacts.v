(** Facts about values of 2^32 bytes and more. *)

From Coq Require Import String.
From Verif Require Import Io BaseFacts Utf8Spec Utf8Facts Valid Wire PrimFacts TypeSpec TypeFacts CompositeSpec CompositeFacts AllTypes AllTypesFacts CodecSpec CodecFacts
  ValueFacts MessageSpec MessageFacts FrameSpec FrameFacts FramingFacts StreamSpec StreamFacts BoundSpec.
Open Scope string_scope.
Open Scope list_scope.
Open Scope Z_scope.

Lemma be4_mod v : be4 (v mod 2 ^ 32) = be4 v.
Proof. unfold be4. repeat (f_equal; try (Z.to_euclidean_division_equations; lia)). Qed.
Lemma be4_cut v k : be4 (v + k * 2 ^ 32) = be4 v.
Proof. rewrite <- be4_mod, Z_mod_plus_full. apply be4_mod. Qed.

Lemma zlen_filling n : 0 <= n -> zlen (filling n) = n.
Proof. intros H. unfold zlen, filling. rewrite repeat_length. lia. Qed.
Lemma filling_ok n : bytes_ok (filling n).
Proof. unfold filling. induction (Z.to_nat n); [constructor|]. cbn [repeat]. constructor; [unfold byte_ok; lia|assumption]. Qed.
Lemma filling_app n m : 0 <= n -> 0 <= m -> filling (n + m) = filling n ++ filling m.
Proof. intros H1 H2. unfold filling. rewrite Z2Nat.inj_add by assumption. apply repeat_app. Qed.
Lemma filling_text n : Forall scalar (filling n) /\ filling n = flat_map utf8_encode (filling n).
Proof.
  unfold filling. induction (Z.to_nat n) as [|k [IH1 IH2]]; [split; [constructor|reflexivity]|]. cbn [repeat flat_map]. change (utf8_encode 0) with [0]. cbn [app]. split.
  - constructor; [vm_compute; intuition discriminate|assumption].
  - now f_equal.
Qed.
Global Opaque filling.

(** ** Binary values and texts *)
Lemma var_cut c8 c32 v : byte_ok c8 -> byte_ok c32 -> let n := zlen v mod 2 ^ 32 in exists hdr, var_header c8 c32 (zlen (ztake n v)) hdr /\
  wbytes (var_enc c8 c32 (zlen v) v) = hdr ++ ztake n v ++ zdrop n v.
Proof.
  intros K8 K32 n. pose proof (zlen_nonneg v). assert (B : 0 <= n <= zlen v).
  { split; [apply Z.mod_pos_bound; lia|]. apply Z.mod_le; lia. }
  assert (C : n < 2 ^ 32) by (apply Z.mod_pos_bound; lia). rewrite zlen_ztake by lia. rewrite ztake_zdrop. unfold var_enc.
  destruct (Z.ltb_spec 255 (zlen v)).
  - exists (c32 :: be4 n). split; [right; split; [lia|reflexivity]|]. unfold wbytes. cbn [app flat_map]. rewrite wop_put_u32. unfold n. rewrite be4_mod.
    cbn [wop_bytes put_u8 be_bytes app]. rewrite Z.mod_small by exact K32. rewrite app_nil_r. reflexivity.
  - exists [c8; n]. assert (n = zlen v) as -> by (apply Z.mod_small; lia). split; [left; split; [lia|reflexivity]|]. unfold wbytes. cbn [app flat_map wop_bytes put_u8 be_bytes].
    rewrite !Z.mod_small by (unfold byte_ok in *; lia). now rewrite app_nil_r.
Qed.
Lemma cut_ok v n : bytes_ok v -> bytes_ok (ztake n v).
Proof. intros B. rewrite <- (ztake_zdrop n v) in B. now apply bytes_ok_app in B. Qed.
Lemma cut_shorter (v : bytes) : 2 ^ 32 <= zlen v -> ztake (zlen v mod 2 ^ 32) v <> v.
Proof.
  intros L E. assert (C : 0 <= zlen v mod 2 ^ 32 < 2 ^ 32) by (apply Z.mod_pos_bound; lia). apply (f_equal (@zlen Z)) in E. rewrite zlen_ztake in E by lia. lia.
Qed.
Lemma cut_whole (v : bytes) : zlen v < 2 ^ 32 -> ztake (zlen v mod 2 ^ 32) v = v /\ zdrop (zlen v mod 2 ^ 32) v = [].
Proof.
  intros L. pose proof (zlen_nonneg v). rewrite Z.mod_small by lia. assert (E : zdrop (zlen v) v = []) by (apply zlen_0; rewrite zlen_zdrop by lia; lia).
  split; [|exact E]. transitivity (ztake (zlen v) v ++ zdrop (zlen v) v); [now rewrite E, app_nil_r|apply ztake_zdrop].
Qed.
Lemma bin_cut md v rest : decode bin_dec md (s_bytes bin_S v ++ rest) = Ok (zdrop (zlen v mod 2 ^ 32) v ++ rest, ztake (zlen v mod 2 ^ 32) v).
Proof.
  destruct (var_cut 0xa0 0xb0 v ltac:(unfold byte_ok; lia) ltac:(unfold byte_ok; lia)) as (hdr & H & E). change (s_bytes bin_S v) with (wbytes (var_enc 0xa0 0xb0 (zlen v) v)).
  rewrite E, <- !app_assoc. set (q := ztake _ v) in *. set (r := zdrop _ v ++ rest).
  destruct H as [[L ->]|[L ->]]; cbn [app].
  - rewrite decode_cons. now apply read_var_u8.
  - rewrite decode_cons. now apply read_var_u32.
Qed.
Lemma bin_exact md v rest : decode bin_dec md (s_bytes bin_S v ++ rest) = Ok (rest, v) <-> zlen v < 2 ^ 32.
Proof.
  rewrite bin_cut. split.
  - intros [= _ E]. destruct (Z.lt_ge_cases (zlen v) (2 ^ 32)) as [|G]; [assumption|]. now destruct (cut_shorter v G).
  - intros L. destruct (cut_whole v L) as [-> ->]. reflexivity.
Qed.

Lemma utf8_decide b : bytes_ok b -> is_utf8 b \/ ~ is_utf8 b.
Proof.
  intros B. destruct (utf8_valid b) eqn:E; [left; now apply (utf8_valid_text (length b))|right]. intros U. apply is_utf8_valid in U. congruence.
Qed.

Section Text.
  Context {T : Type} (d : dec T) (c8 c32 : Z) (inj : bytes -> T) (out : T -> bytes).
  Hypothesis K : byte_ok c8 /\ byte_ok c32.
  Hypothesis inj_out : forall b, out (inj b) = b.
  Hypothesis read : forall md b hdr rest, bytes_ok b -> var_header c8 c32 (zlen b) hdr ->
    (is_utf8 b -> decode d md (hdr ++ b ++ rest) = Ok (rest, inj b)) /\ (~ is_utf8 b -> decode d md (hdr ++ b ++ rest) = Err EUtf8Error).
  Lemma text_cut md v rest : bytes_ok v ->
    (is_utf8 (ztake (zlen v mod 2 ^ 32) v) ->
      decode d md (wbytes (var_enc c8 c32 (zlen v) v) ++ rest) = Ok (zdrop (zlen v mod 2 ^ 32) v ++ rest, inj (ztake (zlen v mod 2 ^ 32) v))) /\
    (~ is_utf8 (ztake (zlen v mod 2 ^ 32) v) -> decode d md (wbytes (var_enc c8 c32 (zlen v) v) ++ rest) = Err EUtf8Error).
  Proof.
    intros B. destruct (var_cut c8 c32 v (proj1 K) (proj2 K)) as (hdr & H & E). rewrite E, <- !app_assoc. apply read; [now apply cut_ok|exact H].
  Qed.
  Lemma text_exact md v rest : is_utf8 v -> decode d md (wbytes (var_enc c8 c32 (zlen v) v) ++ rest) = Ok (rest, inj v) <-> zlen v < 2 ^ 32.
  Proof.
    intros U. assert (B : bytes_ok v) by now apply is_utf8_bytes_ok. destruct (text_cut md v rest B) as [P N]. split.
    - intros E. destruct (Z.lt_ge_cases (zlen v) (2 ^ 32)) as [|G]; [assumption|]. exfalso.
      destruct (utf8_decide (ztake (zlen v mod 2 ^ 32) v) (cut_ok v _ B)) as [Y|Y]; [rewrite P in E by assumption|rewrite N in E by assumption; discriminate].
      injection E as _ E. apply (f_equal out) in E. rewrite !inj_out in E. now destruct (cut_shorter v G).
    - intros L. destruct (cut_whole v L) as [E1 E2]. rewrite E1, E2 in P. now apply P.
  Qed.
End Text.
Definition bstr_cut := text_cut bstr_dec 0xa1 0xb1 (fun b => b) ltac:(unfold byte_ok; lia) bstr_read.
Definition str_cut := text_cut str_dec 0xa1 0xb1 SByteStr ltac:(unfold byte_ok; lia) str_read.
Definition symbol_cut := text_cut symbol_dec 0xa3 0xb3 SByteStr ltac:(unfold byte_ok; lia) symbol_read.
Definition bstr_exact := text_exact bstr_dec 0xa1 0xb1 (fun b => b) (fun b => b) ltac:(unfold byte_ok; lia) (fun b => eq_refl) bstr_read.
Definition str_exact := text_exact str_dec 0xa1 0xb1 SByteStr str_bytes ltac:(unfold byte_ok; lia) (fun b => eq_refl) str_read.
Definition symbol_exact := text_exact symbol_dec 0xa3 0xb3 SByteStr str_bytes ltac:(unfold byte_ok; lia) (fun b => eq_refl) symbol_read.

Lemma cut_app a b : zlen a < 2 ^ 32 -> zlen b = 2 ^ 32 -> cut_off (a ++ b) = a /\ left_over (a ++ b) = b.
Proof.
  intros A B. pose proof (zlen_nonneg a). unfold cut_off, left_over. rewrite zlen_app, B. replace (zlen a + 2 ^ 32) with (zlen a + 1 * 2 ^ 32) by lia.
  rewrite Z_mod_plus_full, Z.mod_small by lia. split; [now apply ztake_app|now apply zdrop_app].
Qed.
Lemma bin_lost : exists v, bytes_ok v /\ zlen v = 2 ^ 32 /\ forall md, decode bin_dec md (s_bytes bin_S v) = Ok (v, []).
Proof.
  assert (L : zlen (filling (2 ^ 32)) = 2 ^ 32) by (apply zlen_filling; lia). exists (filling (2 ^ 32)). split; [apply filling_ok|]. split; [exact L|]. intros md.
  pose proof (bin_cut md (filling (2 ^ 32)) []) as E. rewrite !app_nil_r, L in E. exact E.
Qed.
Lemma text_lost : exists v, is_utf8 v /\ zlen v = 2 ^ 32 + 1 /\ forall md, decode bstr_dec md (s_bytes bstr_S v) = Err EUtf8Error.
Proof.
  assert (L : zlen (filling (2 ^ 32 - 1)) = 2 ^ 32 - 1) by (apply zlen_filling; lia). exists (0xc3 :: 0xa9 :: filling (2 ^ 32 - 1)). split; [|split].
  - exists (0xe9 :: filling (2 ^ 32 - 1)). split; [constructor; [vm_compute; intuition discriminate|]|].
    + apply filling_text.
    + cbn [flat_map]. change (utf8_encode 0xe9) with [0xc3; 0xa9]. cbn [app]. rewrite <- (proj2 (filling_text _)). reflexivity.
  - rewrite !zlen_cons, L. lia.
  - intros md. destruct (cut_app [0xc3] (0xa9 :: filling (2 ^ 32 - 1))) as [E _]; [vm_compute; reflexivity|rewrite zlen_cons, L; lia|].
    destruct (bstr_cut md (0xc3 :: 0xa9 :: filling (2 ^ 32 - 1)) []) as [_ N]; [repeat (constructor; [unfold byte_ok; lia|]); apply filling_ok|].
    assert (X : ~ is_utf8 (cut_off (0xc3 :: 0xa9 :: filling (2 ^ 32 - 1)))) by (cbn [app] in E; rewrite E; intros U; apply is_utf8_valid in U; vm_compute in U; discriminate).
    rewrite app_nil_r in N. exact (N X).
Qed.

(** ** A transfer whose payload goes past 2^32 bytes *)
Lemma frame_prefix ch f : frame_valid f -> frame_memo_ok f -> frame_headers f = 0 ->
  exists body, amqp_bytes (MkAmqpFrame ch f) = be4 (zlen (amqp_bytes (MkAmqpFrame ch f)) mod 2 ^ 32) ++ body.
Proof.
  intros V M H. destruct (frame_size_bytes f V M) as (E & _). rewrite H in E. exists (2 :: 0 :: be2 ch ++ frame_bytes f). rewrite be4_mod. unfold amqp_bytes. rewrite amqp_layout at 1.
  rewrite amqp_layout, zlen_app, !zlen_cons, zlen_app. change (zlen (be4 _)) with 4. change (zlen (be2 _)) with 2. rewrite E. do 2 f_equal. lia.
Qed.
Lemma transfer_data_bytes t p : frame_bytes (FR_Transfer (transfer_of t (Some (TBData p)))) = frame_bytes (FR_Transfer (transfer_of t None)) ++ p.
Proof.
  rewrite transfer_appends, transfer_to_of. unfold transfer_payload. rewrite transfer_body_of. unfold payload. cbn [transfer_body_enc]. unfold wbytes at 1.
  cbn [flat_map wop_bytes]. now rewrite app_nil_r.
Qed.
Lemma transfer_data_size t p : frame_size (FR_Transfer (transfer_of t (Some (TBData p)))) = frame_size (FR_Transfer (transfer_of t None)) + zlen p.
Proof. cbn [frame_size]. rewrite !transfer_size_eq, !transfer_to_of, !transfer_body_of. cbn [transfer_body_size]. lia. Qed.
Lemma transfer_long ch t q more k : zlen more = k * 2 ^ 32 ->
  amqp_bytes (MkAmqpFrame ch (FR_Transfer (transfer_of t (Some (TBData (q ++ more)))))) =
  amqp_bytes (MkAmqpFrame ch (FR_Transfer (transfer_of t (Some (TBData q))))) ++ more.
Proof.
  intros L. unfold amqp_bytes. rewrite !amqp_layout, !transfer_data_bytes, !transfer_data_size, zlen_app, L, !Z.add_assoc, be4_cut, <- !app_assoc. cbn [app].
  now rewrite <- !app_assoc.
Qed.
Lemma amqp_frame_of md f : amqp_sendable f -> frame_of amqp_frame_decode md (amqp_received f) (amqp_bytes f).
Proof.
  destruct f as [ch p]. intros [C S]. destruct (amqp_round_trip md ch p C S) as (body & E & L1 & L2 & _ & D). exists body. split; [split; [exact E|lia]|]. now split.
Qed.
Lemma frames_of md fs : Forall amqp_sendable fs -> Forall2 (frame_of amqp_frame_decode md) (map amqp_received fs) (map amqp_bytes fs).
Proof. induction 1; [constructor|]. constructor; [now apply amqp_frame_of|assumption]. Qed.
Lemma sent_ok fs : Forall amqp_sendable fs -> bytes_ok (concat (map amqp_bytes fs)).
Proof.
  induction 1 as [|[ch p] fs (C & V & M & _) F IH]; [constructor|]. cbn [map concat af_channel_id af_performative] in *. apply bytes_ok_app. split; [|exact IH].
  unfold amqp_bytes. rewrite amqp_layout. apply bytes_ok_app. split; [apply be4_ok|].
  constructor; [unfold byte_ok; lia|]. constructor; [unfold byte_ok; lia|]. apply bytes_ok_app. split; [apply be2_ok|]. now apply frame_size_bytes.
Qed.
Lemma injection md ch t q fs k chunks : amqp_sendable (MkAmqpFrame ch (FR_Transfer (transfer_of t (Some (TBData q))))) -> Forall amqp_sendable fs ->
  zlen (concat (map amqp_bytes fs)) = k * 2 ^ 32 ->
  concat chunks = amqp_bytes (MkAmqpFrame ch (FR_Transfer (transfer_of t (Some (TBData (q ++ concat (map amqp_bytes fs))))))) ->
  feed_all amqp_frame_decode md stream_new chunks =
  (stream_new, map (fun f => EvItem (amqp_received f)) (MkAmqpFrame ch (FR_Transfer (transfer_of t (Some (TBData q)))) :: fs)).
Proof.
  intros S F L E. rewrite transfer_long with (k := k) in E by exact L.
  rewrite <- map_map. apply (frames_received amqp_frame_decode md _ (map amqp_bytes (MkAmqpFrame ch (FR_Transfer (transfer_of t (Some (TBData q)))) :: fs))); [|exact E].
  apply frames_of. now constructor.
Qed.

(** What is needed to fill up to 2^32 bytes. *)
Definition plain_row : transfer_row := (0, (None, (None, (None, (None, (false, (None, (None, (false, (false, (false, tt))))))))))).
Definition plain_transfer (b : bytes) : amqp_frame := MkAmqpFrame 0 (FR_Transfer (transfer_of plain_row (Some (TBData b)))).
Definition plain_head : bytes := Eval vm_compute in skipn 4 (amqp_bytes (plain_transfer [])).
Lemma plain_bytes b : amqp_bytes (plain_transfer b) = be4 (4 + zlen plain_head + zlen b) ++ plain_head ++ b.
Proof. unfold amqp_bytes, plain_transfer. now rewrite amqp_layout, transfer_data_bytes, transfer_data_size, Z.add_assoc. Qed.
Lemma plain_sendable b : bytes_ok b -> 4 + zlen plain_head + zlen b < 2 ^ 32 -> amqp_sendable (plain_transfer b).
Proof.
  intros B L. split; [cbn; lia|]. unfold plain_transfer, af_performative. unfold frame_sendable. rewrite transfer_data_size. repeat split.
  - cbn. lia.
  - exact B.
  - change (frame_size _) with (4 + zlen plain_head - HEADER_LEN). lia.
Qed.
(** Any frames, and one more to fill up to 2^32 bytes. *)
Lemma smuggled ch t q fs : amqp_sendable (MkAmqpFrame ch (FR_Transfer (transfer_of t (Some (TBData q))))) -> Forall amqp_sendable fs -> fs <> [] ->
  zlen (concat (map amqp_bytes fs)) <= 2 ^ 32 - 64 ->
  exists more last, bytes_ok more /\ zlen more = 2 ^ 32 /\ forall md chunks,
    concat chunks = amqp_bytes (MkAmqpFrame ch (FR_Transfer (transfer_of t (Some (TBData (q ++ more)))))) ->
    feed_all amqp_frame_decode md stream_new chunks =
    (stream_new, map (fun f => EvItem (amqp_received f)) (MkAmqpFrame ch (FR_Transfer (transfer_of t (Some (TBData q)))) :: fs ++ [last])).
Proof.
  intros S F N L. set (n := 2 ^ 32 - zlen (concat (map amqp_bytes fs)) - (4 + zlen plain_head)).
  assert (P : 4 <= zlen (concat (map amqp_bytes fs))).
  { destruct fs as [|[ch' f] fs]; [easy|]. cbn [map concat]. unfold amqp_bytes at 1. rewrite amqp_layout, !zlen_app. change (zlen (be4 _)) with 4.
    pose proof (zlen_nonneg (concat (map amqp_bytes fs))). pose proof (zlen_nonneg (2 :: 0 :: be2 ch' ++ frame_bytes f)). lia. }
  assert (H : zlen plain_head <= 60) by (vm_compute; discriminate). assert (Hn : 0 <= n) by (unfold n; lia).
  exists (concat (map amqp_bytes (fs ++ [plain_transfer (filling n)]))), (plain_transfer (filling n)).
  assert (E : zlen (concat (map amqp_bytes (fs ++ [plain_transfer (filling n)]))) = 2 ^ 32).
  { rewrite map_app, concat_app, zlen_app. cbn [map concat]. rewrite app_nil_r, plain_bytes, !zlen_app, zlen_filling by exact Hn. change (zlen (be4 _)) with 4. unfold n. lia. }
  assert (G : Forall amqp_sendable (fs ++ [plain_transfer (filling n)])); [|split; [now apply sent_ok|]; split; [exact E|];
    intros md chunks C; apply injection with (k := 1); [exact S|exact G|rewrite E; lia|exact C]].
  apply Forall_app. split; [exact F|]. constructor; [|constructor]. apply plain_sendable; [apply filling_ok|]. rewrite zlen_filling by exact Hn. unfold n. lia.
Qed.

Lemma closed : exists ch v, 0 <= ch < 2 ^ 16 /\ frame_valid (FR_Transfer v) /\ frame_memo_ok (FR_Transfer v) /\
  forall md, exists w y, zlen (transfer_payload w) = 1 /\ feed_all amqp_frame_decode md stream_new [amqp_bytes (MkAmqpFrame ch (FR_Transfer v))] =
  (stream_new, [EvItem (MkAmqpFrame ch (FR_Transfer w)); EvItem (MkAmqpFrame 0 (FR_Close (MkClose None))); EvItem y]).
Proof.
  set (fs := [MkAmqpFrame 0 (FR_Close (MkClose None))]). assert (F : Forall amqp_sendable fs).
  { constructor; [|constructor]. split; [cbn; lia|]. repeat split; vm_compute; reflexivity. }
  assert (S : amqp_sendable (plain_transfer [7])) by (apply plain_sendable; [constructor; [unfold byte_ok; lia|constructor]|vm_compute; reflexivity]).
  assert (L : zlen (concat (map amqp_bytes fs)) <= 2 ^ 32 - 64) by (vm_compute; discriminate).
  destruct (smuggled 0 plain_row [7] fs S F ltac:(discriminate) L) as (more & last & B & _ & R).
  exists 0, (transfer_of plain_row (Some (TBData ([7] ++ more)))). split; [cbn; lia|]. split; [|split; [exact I|]].
  - split; [repeat split; cbn; lia|]. change (bytes_ok ([7] ++ more)). apply bytes_ok_app. split; [constructor; [unfold byte_ok; lia|constructor]|exact B].
  - intros md. exists (transfer_of plain_row (Some (TBData [7]))), (amqp_received last). split; [reflexivity|].
    change (MkAmqpFrame 0 (FR_Transfer (transfer_of plain_row (Some (TBData ([7] ++ more)))))) with (plain_transfer ([7] ++ more)). rewrite (R md [amqp_bytes (plain_transfer ([7] ++ more))]) by apply app_nil_r. reflexivity.
Qed.

(** ** A message with a body past 2^32 bytes *)
Lemma data_wire q p : bytes_ok q -> var_header 0xa0 0xb0 (zlen q) p ->
  s_wire section_S (SEC_Data q) (0x00 :: 0x53 :: 0x75 :: p ++ q) /\ s_decodable section_S (SEC_Data q).
Proof.
  intros B H. split; [|exact I]. exists [0x53; 0x75], (p ++ q). split; [left; apply WUL_8; lia|]. split; [|reflexivity]. split; [exact B|]. destruct H as [[L ->]|[L ->]]; [now apply WV_8|now apply WV_32].
Qed.
Lemma data_message b : message_bytes (with_body b) = 0x00 :: 0x53 :: 0x75 :: wbytes (var_enc 0xa0 0xb0 (zlen b) b).
Proof. rewrite message_bytes_sections; [|constructor|constructor|exact I]. cbn -[var_enc]. now rewrite app_nil_r. Qed.
Lemma body_cut b : bytes_ok b -> let n := zlen b mod 2 ^ 32 in exists p, message_bytes (with_body b) = p ++ zdrop n b /\
  s_wire section_S (SEC_Data (ztake n b)) p /\ s_decodable section_S (SEC_Data (ztake n b)).
Proof.
  intros B n. destruct (var_cut 0xa0 0xb0 b ltac:(unfold byte_ok; lia) ltac:(unfold byte_ok; lia)) as (p & H & E). fold n in H, E.
  exists (0x00 :: 0x53 :: 0x75 :: p ++ ztake n b). split; [rewrite data_message, E; cbn [app]; now rewrite app_assoc|]. apply data_wire; [now apply cut_ok|exact H].
Qed.
Lemma body_long q more k : bytes_ok q -> zlen q < 2 ^ 32 -> bytes_ok more -> zlen more = k * 2 ^ 32 -> exists p, message_bytes (with_body (q ++ more)) = p ++ more /\
  s_wire section_S (SEC_Data q) p /\ s_decodable section_S (SEC_Data q).
Proof.
  intros Q L B E. destruct (body_cut (q ++ more)) as (p & P); [now apply bytes_ok_app|]. exists p.
  assert (X : zlen (q ++ more) mod 2 ^ 32 = zlen q) by (pose proof (zlen_nonneg q); rewrite zlen_app, E, Z_mod_plus_full; now apply Z.mod_small).
  rewrite X, ztake_app, zdrop_app in P by reflexivity. exact P.
Qed.
Lemma message_long md q secs parts k : bytes_ok q -> zlen q < 2 ^ 32 -> bytes_ok (concat parts) -> zlen (concat parts) = k * 2 ^ 32 ->
  Forall2 (fun bs sec => s_wire section_S sec bs /\ s_decodable section_S sec) parts secs ->
  exists r, message_decode md (message_bytes (with_body (q ++ concat parts))) = Ok (r, message_of (SEC_Data q :: secs)).
Proof.
  intros Q L B E F. destruct (body_long q (concat parts) k Q L B E) as (p & -> & W & D). eexists. apply (accepts_sections md (SEC_Data q :: secs) (p :: parts)); [discriminate|].
  constructor; [now split|exact F].
Qed.
Lemma sections_emitted secs : Forall section_sendable secs ->
  Forall2 (fun bs sec => s_wire section_S sec bs /\ s_decodable section_S sec) (map (s_bytes section_S) secs) (map (s_canon section_S) secs).
Proof.
  induction 1 as [|x l (V & C & L & D)]; [constructor|]. constructor; [|assumption]. split; [|exact D]. now apply (type_emits section_S section_type).
Qed.
Lemma sections_ok secs : Forall section_sendable secs -> bytes_ok (concat (map (s_bytes section_S) secs)).
Proof.
  induction 1 as [|x l (V & _)]; [constructor|]. cbn [map concat]. apply bytes_ok_app. split; [|assumption]. now apply (type_bytes section_S section_type).
Qed.
Lemma message_smuggled q secs : bytes_ok q -> zlen q < 2 ^ 32 -> Forall section_sendable secs -> zlen (concat (map (s_bytes section_S) secs)) <= 2 ^ 32 - 512 ->
  exists more last, bytes_ok more /\ zlen more = 2 ^ 32 /\ forall md, exists r,
    message_decode md (message_bytes (with_body (q ++ more))) = Ok (r, message_of (SEC_Data q :: map (s_canon section_S) secs ++ [SEC_Data last])).
Proof.
  intros Q L F N. set (n := 2 ^ 32 - zlen (concat (map (s_bytes section_S) secs)) - 8). assert (Hn : 255 < n) by (unfold n; lia).
  pose proof (zlen_nonneg (concat (map (s_bytes section_S) secs))).
  assert (Z : zlen (filling n) = n) by (apply zlen_filling; lia).
  destruct (data_wire (filling n) (0xb0 :: be4 n) (filling_ok n)) as [W D]; [rewrite Z; right; split; [unfold n; lia|reflexivity]|].
  set (end_ := 0x00 :: 0x53 :: 0x75 :: (0xb0 :: be4 n) ++ filling n) in *.
  assert (E : zlen (concat (map (s_bytes section_S) secs ++ [end_])) = 2 ^ 32).
  { rewrite concat_app, zlen_app. cbn [concat]. rewrite app_nil_r. unfold end_. rewrite !zlen_cons. cbn [app]. rewrite zlen_cons, zlen_app, Z. change (zlen (be4 n)) with 4. unfold n. lia. }
  exists (concat (map (s_bytes section_S) secs ++ [end_])), (filling n).
  assert (G : bytes_ok (concat (map (s_bytes section_S) secs ++ [end_]))).
  { rewrite concat_app. apply bytes_ok_app. split; [now apply sections_ok|]. cbn [concat]. rewrite app_nil_r. unfold end_.
    do 3 (constructor; [unfold byte_ok; lia|]). cbn [app]. constructor; [unfold byte_ok; lia|]. apply bytes_ok_app. split; [apply be4_ok|apply filling_ok]. }
  split; [exact G|]. split; [exact E|]. intros md. apply message_long with (k := 1); [exact Q|exact L|exact G|rewrite E; lia|].
  apply Forall2_app; [now apply sections_emitted|]. constructor; [now split|constructor].
Qed.
Definition faked : properties_t := MkProperties None (Some [0x72; 0x6f; 0x6f; 0x74]) None None None None None None None None None None None.
Lemma faked_message : exists b, bytes_ok b /\ m_properties (with_body b) = None /\ forall md, exists r m,
  message_decode md (message_bytes (with_body b)) = Ok (r, m) /\ m_properties m = Some faked.
Proof.
  assert (F : Forall section_sendable [SEC_Properties faked]).
  { constructor; [|constructor]. repeat split; try (vm_compute; reflexivity). cbn. repeat (constructor; [unfold byte_ok; lia|]). constructor. }
  destruct (message_smuggled [7] [SEC_Properties faked]) as (more & last & B & _ & R); [constructor; [unfold byte_ok; lia|constructor]|vm_compute; reflexivity|exact F|vm_compute; discriminate|].
  exists ([7] ++ more). split; [apply bytes_ok_app; split; [constructor; [unfold byte_ok; lia|constructor]|exact B]|]. split; [reflexivity|].
  intros md. destruct (R md) as [r E]. exists r. eexists. split; [exact E|reflexivity].
Qed.
