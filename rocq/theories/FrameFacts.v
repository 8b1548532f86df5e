(** Facts about frames: the transfer with its payload, dispatch, frame headers. *)

From Coq Require Import String.
From Verif Require Import Io BaseFacts Utf8Spec Valid Wire PrimFacts DecLaws EncLaws VariantFacts TypeSpec TypeFacts CompositeSpec CompositeFacts
  AllTypes AllTypesFacts CodecSpec EqFacts CodecFacts CompositeReads MessageSpec MessageFacts FrameSpec.
Open Scope string_scope.
Open Scope list_scope.
Open Scope Z_scope.

(** ** Transfer: the fields form a composite like the others *)
Definition head_inner (md : mode) (inp : bytes) : res (bytes * transfer_row) :=
  '(s, rem) <- open_list md inp ;; dec_fields_k transfer_table md s (fun a => Ok (rem, a)).
Definition head_size (a : transfer_row) : Z := transfer_size (transfer_of a None).
Definition head_enc (a : transfer_row) : list wop := transfer_enc (transfer_of a None).
Definition head_K : composite := MkComposite transfer_row transfer_row 0x14 "amqp:transfer:list" transfer_table
  (fun a => a) (fun a => a)
  (MkCodec (MkEnc head_size head_enc) (composite_dec 0x14 "amqp:transfer:list" head_inner)) head_inner.

Lemma transfer_to_of a b : transfer_to (transfer_of a b) = a.
Proof. destruct a as (a1 & a2 & a3 & a4 & a5 & a6 & a7 & a8 & a9 & a10 & a11 & []). reflexivity. Qed.
Lemma transfer_of_to v : transfer_of (transfer_to v) (transfer_body_f v) = v.
Proof. now destruct v. Qed.
Lemma head_content v : transfer_content_size v = size_fields transfer_table 0 (transfer_to v).
Proof.
  unfold transfer_table, transfer_content_size, transfer_to. cbn [size_fields fst snd]. unfold s_size.
  repeat (apply (f_equal2 Z.add); [|reflexivity]); reflexivity.
Qed.
Lemma head_content_enc v : transfer_enc v = composite_header 0x14 11 (transfer_content_size v) ++ enc_fields transfer_table (transfer_to v)
  ++ match transfer_body_f v with Some b => transfer_body_enc b | None => [] end.
Proof.
  unfold transfer_enc, transfer_table, transfer_to. cbn [enc_fields fst snd]. rewrite ?app_nil_r, <- ?app_assoc. app_eq.
Qed.
Lemma head_tr : transcribed head_K.
Proof.
  constructor.
  - vm_compute. split; [discriminate|reflexivity].
  - reflexivity.
  - reflexivity.
  - reflexivity.
  - reflexivity.
  - intros a. change (head_size a = composite_size (size_fields transfer_table 0 a)). unfold head_size, transfer_size.
    rewrite head_content, transfer_to_of. destruct a as (a1 & a2 & a3 & a4 & a5 & a6 & a7 & a8 & a9 & a10 & a11 & []).
    cbn [transfer_of transfer_body_f]. apply Z.add_0_r.
  - intros a. change (head_enc a = composite_header 0x14 11 (size_fields transfer_table 0 a) ++ enc_fields transfer_table a).
    unfold head_enc. rewrite head_content_enc, head_content, transfer_to_of.
    destruct a as (a1 & a2 & a3 & a4 & a5 & a6 & a7 & a8 & a9 & a10 & a11 & []).
    cbn [transfer_of transfer_body_f]. now rewrite app_nil_r.
  - vm_compute. reflexivity.
Qed.
Lemma head_fields : good_fields (k_fields head_K). Proof. unfold head_K, transfer_table. fields_good_tac. Qed.
Lemma head_D : good_D (composite_D head_K). Proof. exact (composite_good_D _ head_tr head_fields). Qed.

Lemma transfer_size_eq v : transfer_size v = head_size (transfer_to v) + match transfer_body_f v with Some b => transfer_body_size b | None => 0 end.
Proof. unfold head_size, transfer_size. rewrite !head_content, transfer_to_of. destruct v as [h1 h2 h3 h4 h5 h6 h7 h8 h9 h10 h11 b]. cbn [transfer_body_f transfer_to transfer_of]. lia. Qed.
Lemma transfer_bytes_eq v : wbytes (transfer_enc v) = wbytes (head_enc (transfer_to v)) ++ transfer_payload v.
Proof.
  unfold head_enc, transfer_payload, payload. rewrite !head_content_enc, !head_content, transfer_to_of, !wbytes_app. destruct v as [h1 h2 h3 h4 h5 h6 h7 h8 h9 h10 h11 b].
  cbn [transfer_body_f transfer_to transfer_of]. change (wbytes []) with (@nil Z); rewrite app_nil_r, <- app_assoc. destruct b; reflexivity.
Qed.
Lemma transfer_inner_eq md inp : decode_transfer_inner md inp =
  ('(rem, a) <- head_inner md inp ;; Ok ([], transfer_of a (received_payload rem))).
Proof.
  unfold head_inner. destruct (open_list md inp) as [[s rem]|e|p|] eqn:E; try (unfold decode_transfer_inner; rewrite E; reflexivity).
  transitivity (dec_fields_k transfer_table md s (fun a => Ok (@nil Z, transfer_of a (received_payload rem)))).
  - unfold decode_transfer_inner. rewrite E. destruct rem; reflexivity.
  - cbn [bind]. rewrite !dec_fields_k_eq. destruct (dec_fields transfer_table md s) as [[s' a]|e|p|]; reflexivity.
Qed.

(** Conversion should take the records apart first. *)
Strategy 1000 [open_size open_enc decode_open_inner begin_size begin_enc decode_begin_inner attach_size attach_enc decode_attach_inner flow_size flow_enc decode_flow_inner transfer_size transfer_enc decode_transfer_inner disposition_size disposition_enc decode_disposition_inner detach_size detach_enc decode_detach_inner end_size end_enc decode_end_inner close_size close_enc decode_close_inner].

(** ** Size *)
Definition sized_frame (f : frame) : Prop :=
  frame_size f = zlen (frame_bytes f) + 3 * frame_headers f /\ bytes_ok (frame_bytes f).
Lemma fits_sized {T} (D : dspec T) (v : T) : good_D D -> d_valid D v ->
  e_size (d_E D) v = zlen (wbytes (e_enc (d_E D) v)) + 3 * 0 /\ bytes_ok (wbytes (e_enc (d_E D) v)).
Proof. intros G V. destruct (gd_enc D G v V) as [[H1 H2] _]. split; [lia|exact H2]. Qed.
Lemma frame_size_bytes f : frame_valid f -> frame_memo_ok f ->
  frame_size f = zlen (frame_bytes f) + 3 * frame_headers f /\ bytes_ok (frame_bytes f) /\ 0 <= frame_headers f.
Proof.
  intros V M. assert (X : sized_frame f /\ 0 <= frame_headers f); [|unfold sized_frame in X; tauto].
  destruct f as [v|v|v|v|v|v|v|v|v|]; (split; [|try reflexivity]).
  - exact (fits_sized _ v open_D V).
  - exact (fits_sized _ v begin_D V).
  - exact (fits_sized _ v attach_D V).
  - exact (fits_sized _ v flow_D V).
  - destruct V as [V VB]. pose proof (fits_sized _ (transfer_to v) head_D V) as [H1 H2].
    change (e_size (d_E (composite_D head_K)) (transfer_to v)) with (head_size (transfer_to v)) in H1.
    change (e_enc (d_E (composite_D head_K)) (transfer_to v)) with (head_enc (transfer_to v)) in H1, H2.
    unfold sized_frame, frame_bytes. cbn [frame_size frame_enc frame_headers]. rewrite transfer_size_eq, transfer_bytes_eq, zlen_app.
    unfold transfer_payload. cbn [frame_memo_ok] in M. destruct (transfer_body_f v) as [t|].
    + cbn [opt_prop] in VB, M. destruct (all_measured t VB M) as (A & B & _). unfold payload in *.
      split; [lia|]. apply Forall_app. now split.
    + change (zlen (@nil Z)) with 0. rewrite app_nil_r. split; [lia|exact H2].
  - cbn [frame_headers]. cbn [frame_memo_ok] in M. destruct V as [V VB]. destruct (transfer_body_f v) as [t|]; [|reflexivity].
    cbn [opt_prop] in VB, M. now destruct (all_measured t VB M) as (_ & _ & C).
  - exact (fits_sized _ v disposition_D V).
  - exact (fits_sized _ v detach_D V).
  - exact (fits_sized _ v end_D V).
  - exact (fits_sized _ v close_D V).
  - split; [reflexivity|constructor].
Qed.

(** ** What is written *)
Lemma transfer_body_of a b : transfer_body_f (transfer_of a b) = b.
Proof. now destruct a as (a1 & a2 & a3 & a4 & a5 & a6 & a7 & a8 & a9 & a10 & a11 & []). Qed.
Lemma transfer_emits v : d_valid transfer_D v -> opt_prop body_memo_ok (transfer_body_f v) -> d_encodable transfer_D v -> transfer_size v < 2 ^ 32 ->
  wire_described transfer_D (d_canon transfer_D v) (wbytes (transfer_enc v)).
Proof.
  intros [V VB] M E S. rewrite transfer_size_eq in S.
  assert (HS : head_size (transfer_to v) < 2 ^ 32).
  { destruct (transfer_body_f v) as [t|]; [|lia]. cbn [opt_prop] in VB, M.
    destruct (all_measured t VB M) as (A & _ & B). pose proof (zlen_nonneg (payload t)). lia. }
  destruct (gd_emits _ head_D (transfer_to v) V E HS) as (body & EB & encs & W & WL).
  exists [0x53; 0x14], (body ++ transfer_payload v). split; [left; apply (WUL_8 0x14); lia|]. split.
  - exists encs, body, (transfer_payload v). cbn [transfer_D d_canon]. rewrite transfer_to_of, transfer_body_of. now repeat split.
  - rewrite transfer_bytes_eq. change (wbytes (head_enc (transfer_to v)) = 0x00 :: 0x53 :: 0x14 :: body) in EB. rewrite EB. reflexivity.
Qed.
Lemma frame_emits f : frame_valid f -> frame_memo_ok f -> frame_encodable f -> frame_size f < 2 ^ 32 ->
  wire_frame (frame_canon f) (frame_bytes f).
Proof.
  intros V M E S. destruct f as [v|v|v|v|v|v|v|v|v|].
  - exact (emitted_described _ v open_D V E S).
  - exact (emitted_described _ v begin_D V E S).
  - exact (emitted_described _ v attach_D V E S).
  - exact (emitted_described _ v flow_D V E S).
  - exact (transfer_emits v V M E S).
  - exact (emitted_described _ v disposition_D V E S).
  - exact (emitted_described _ v detach_D V E S).
  - exact (emitted_described _ v end_D V E S).
  - exact (emitted_described _ v close_D V E S).
  - reflexivity.
Qed.

(** ** Dispatch *)
Lemma frame_alts_ok : alts_ok frame_alts. Proof. alts_tac frame_alts. Qed.
Lemma frame_codes : Forall (fun a => 1 <= d_code (a_D a) < 256) frame_alts.
Proof. unfold frame_alts. repeat (apply Forall_cons; [vm_compute; split; congruence|]); apply Forall_nil. Qed.
Lemma frame_select_eq md d inp : frame_select md d inp = union_select frame_alts md d inp.
Proof. destruct d; reflexivity. Qed.
Definition frame_dec : dec frame := fun md inp fmt =>
  _ <- validate_code fmt FC_DESCRIBED ;; '(inp2, d) <- decode descriptor_dec md inp ;; union_select frame_alts md d inp2.
Lemma frame_decode_cons md c r : frame_decode md (c :: r) = frame_dec md r c.
Proof.
  transitivity (decode frame_dec md (c :: r)); [|apply decode_cons]. unfold frame_decode, decode, frame_dec. apply bind_ext. intros [i f].
  apply bind_ext. intros []. apply bind_ext. intros [i2 d]. apply frame_select_eq.
Qed.
Lemma frame_labelled md d inp inp1 : decode descriptor_dec md inp = Ok (inp1, d) -> frame_decode md (0x00 :: inp) = union_select frame_alts md d inp1.
Proof.
  intros E. rewrite frame_decode_cons. unfold frame_dec. change (validate_code 0x00 FC_DESCRIBED) with (@Ok unit tt). cbn [bind].
  now rewrite E.
Qed.
Lemma frame_named md a label r : In a frame_alts -> wire_label (d_code (a_D a)) (d_name (a_D a)) label ->
  frame_decode md (0x00 :: label ++ r) = map_res (a_inj a) (d_inner (a_D a) md r).
Proof.
  intros Ha W. destruct frame_alts_ok as [AC AN _ _]. pose proof frame_codes as HC. rewrite Forall_forall in HC.
  destruct (label_decodes (a_D a) md label (HC a Ha) W) as (d & D & L). rewrite (frame_labelled md d _ r (D r)). now apply select_label.
Qed.
Lemma frame_other md d label r : wire_descriptor d label -> d <> DUlong 0 -> Forall (fun a => ~ names (a_D a) d) frame_alts ->
  frame_decode md (0x00 :: label ++ r) = Err (EInvalidDescriptor d).
Proof. intros W N HN. rewrite (frame_labelled md d _ r (descriptor_accepts md d label N W r)). now apply select_none. Qed.
Lemma frame_covers f : f = FR_Empty \/ exists a x, In a frame_alts /\ f = a_inj a x.
Proof. destruct f as [v|v|v|v|v|v|v|v|v|]; [right..|now left]. all: find_alt. Qed.

(** ** What is read *)
Lemma transfer_accepts md v bs : d_body transfer_D v bs -> d_decodable transfer_D v -> decode_transfer_inner md bs = Ok ([], v).
Proof.
  intros (encs & fs & p & W & WL & -> & B) D. rewrite transfer_inner_eq.
  assert (H : head_inner md (fs ++ p) = Ok (p, transfer_to v)).
  { apply (gd_accepts _ head_D md (transfer_to v) fs p); [exists encs; now split|exact D]. }
  rewrite H. cbn [bind]. now rewrite <- B, transfer_of_to.
Qed.
Lemma alt_accepts {X} (D : dspec X) inj prj md v bs rest : In (MkAlt D inj prj) frame_alts -> good_D D ->
  wire_described D v bs -> d_decodable D v -> frame_decode md (bs ++ rest) = Ok (rest, inj v).
Proof.
  intros I G (label & body & WL & B & ->) HD. change ((0x00 :: label ++ body) ++ rest) with (0x00 :: (label ++ body) ++ rest).
  rewrite <- app_assoc. rewrite (frame_named md _ label (body ++ rest) I WL). cbn [a_D a_inj].
  exact (f_equal (map_res inj) (gd_accepts D G md v body rest B HD)).
Qed.
Ltac in_alts := unfold frame_alts; repeat (first [left; reflexivity|right]).
Lemma transfer_case md v bs : wire_described transfer_D v bs -> d_decodable transfer_D v -> frame_decode md bs = Ok ([], FR_Transfer v).
Proof.
  intros (label & body & WL & B & ->) HD.
  assert (I : In (MkAlt transfer_D FR_Transfer (fun v => match v with FR_Transfer x => Some x | _ => None end)) frame_alts) by in_alts.
  rewrite (frame_named md _ label body I WL). cbn [a_D a_inj transfer_D d_inner]. now rewrite (transfer_accepts md v body B HD).
Qed.
Lemma frame_accepts md f bs rest : wire_frame f bs -> frame_decodable f -> (takes_rest f -> rest = []) ->
  frame_decode md (bs ++ rest) = Ok (rest, f).
Proof.
  intros W D N. destruct f as [v|v|v|v|v|v|v|v|v|]; cbn [takes_rest] in N; try specialize (N I).
  - exact (alt_accepts (composite_D open_K) _ _ md v bs rest ltac:(in_alts) open_D W D).
  - exact (alt_accepts (composite_D begin_K) _ _ md v bs rest ltac:(in_alts) begin_D W D).
  - exact (alt_accepts (composite_D attach_K) _ _ md v bs rest ltac:(in_alts) attach_D W D).
  - exact (alt_accepts (composite_D flow_K) _ _ md v bs rest ltac:(in_alts) flow_D W D).
  - subst rest. rewrite app_nil_r. exact (transfer_case md v bs W D).
  - exact (alt_accepts (composite_D disposition_K) _ _ md v bs rest ltac:(in_alts) disposition_D W D).
  - exact (alt_accepts (composite_D detach_K) _ _ md v bs rest ltac:(in_alts) detach_D W D).
  - exact (alt_accepts (composite_D end_K) _ _ md v bs rest ltac:(in_alts) end_D W D).
  - exact (alt_accepts (composite_D close_K) _ _ md v bs rest ltac:(in_alts) close_D W D).
  - subst rest. cbn [wire_frame] in W. now subst bs.
Qed.
Lemma frame_total md inp : frame_decode md inp <> Oof.
Proof.
  destruct inp as [|c r]; [discriminate|]. rewrite frame_decode_cons. unfold frame_dec. intros E.
  apply bind_oof in E as [E|(u & _ & E)]; [unfold validate_code in E; destruct (_ =? _); discriminate|].
  apply bind_oof in E as [E|([i d] & _ & E)]; [now apply decode_total in E; [|apply descriptor_total]|].
  assert (G : Forall (fun a => forall md inp, d_inner (a_D a) md inp <> Oof) frame_alts).
  { unfold frame_alts. repeat apply Forall_cons; try apply Forall_nil; cbn [a_D].
    5: { intros md' inp' H. cbn [transfer_D d_inner] in H. rewrite transfer_inner_eq in H. apply bind_oof in H as [H|([i' d'] & _ & H)]; [|discriminate].
         exact (gd_total _ head_D md' inp' H). }
    all: apply gd_total; eauto with goods. }
  induction G as [|a l Ga _ IH]; [discriminate|]. cbn [union_select] in E. destruct (matches _ _ d).
  - apply map_res_oof in E. now apply Ga in E.
  - now apply IH.
Qed.
(** Reading succeeds on a prefix of the input, which is enough. *)
Definition sound {X} (D : dspec X) : Prop := forall md inp rest v, d_inner D md inp = Ok (rest, v) ->
  (exists p, inp = p ++ rest /\ d_inner D md p = Ok ([], v)) /\ (bytes_ok inp -> d_valid D v).
Lemma good_sound {X} (D : dspec X) : good_D D -> sound D.
Proof.
  intros G md inp rest v E. destruct (gd_lawful D G md inp rest v E) as [(p & -> & H) H2]. split; [|exact H2]. exists p. split; [reflexivity|].
  rewrite <- (H []). now rewrite app_nil_r.
Qed.
Lemma transfer_sound : sound transfer_D.
Proof.
  intros md inp rest v E. cbn [transfer_D d_inner] in *. pose proof E as E0. rewrite transfer_inner_eq in E. apply bind_ok in E as [[rem a] [E1 E2]].
  injection E2 as <- <-. split.
  - exists inp. split; [now rewrite app_nil_r|exact E0].
  - intros H. destruct (gd_lawful _ head_D md inp rem a E1) as [(p & -> & _) H2]. 
    change (each_field (@s_valid) transfer_table (transfer_to (transfer_of a (received_payload rem))) /\ opt_prop body_valid (transfer_body_f (transfer_of a (received_payload rem)))).
    rewrite transfer_to_of, transfer_body_of.
    split; [exact (H2 H)|]. apply Forall_app in H as [_ H]. destruct rem; [exact I|exact H].
Qed.
Lemma frame_alts_sound : Forall (fun a => sound (a_D a)) frame_alts.
Proof.
  unfold frame_alts. repeat apply Forall_cons; try apply Forall_nil; cbn [a_D]. 5: exact transfer_sound.
  all: apply good_sound; eauto with goods.
Qed.
Lemma frame_read md inp rest f : frame_decode md inp = Ok (rest, f) ->
  (exists p, inp = p ++ rest /\ frame_decode md p = Ok ([], f)) /\ (bytes_ok inp -> frame_valid f) /\ frame_memo_ok f /\ frame_headers f = 0.
Proof.
  destruct inp as [|c r]. { intros [= <- <-]. split; [exists []; split; reflexivity|]. repeat split. }
  rewrite frame_decode_cons. unfold frame_dec. intros E. apply bind_ok in E as [[] [E1 E]]. apply bind_ok in E as [[i d] [E2 E]].
  destruct (decode_lawful _ _ md descriptor_lawful _ _ _ E2) as [(p & -> & Hp) _].
  assert (forall l, incl l frame_alts -> union_select l md d i = Ok (rest, f) ->
    exists a x q, In a frame_alts /\ f = a_inj a x /\ i = q ++ rest /\ union_select l md d q = Ok ([], f) /\
      d_inner (a_D a) md i = Ok (rest, x) /\ (bytes_ok i -> d_valid (a_D a) x)) as K.
  { clear E. induction l as [|a l IH]; intros Hl E; [discriminate|]. cbn [union_select] in *. destruct (matches _ _ d).
    - assert (Ha : In a frame_alts) by (apply Hl; now left). apply map_res_ok in E as (x & E & ->).
      pose proof frame_alts_sound as S. rewrite Forall_forall in S. destruct (S a Ha md i rest x E) as [(q & -> & Hq) H2].
      exists a, x, q. repeat split; auto. now rewrite Hq.
    - apply IH; [|exact E]. intros b Hb. apply Hl. now right. }
  destruct (K frame_alts (incl_refl _) E) as (a & x & q & Ha & -> & -> & Hq & Hi & Hv). split; [|split; [|]].
  - exists (c :: p ++ q). split; [cbn [app]; f_equal; apply app_assoc|]. rewrite frame_decode_cons. unfold frame_dec. rewrite E1. cbn [bind].
    etransitivity; [apply (bind_eq _ _ _ (Hp q))|exact Hq].
  - intros B. inversion B as [|? ? _ B']; subst. apply Forall_app in B' as [_ B']. specialize (Hv B').
    pose proof (the_alternative_intro (@d_valid) frame_alts a x frame_alts_ok Ha Hv) as V. destruct (a_inj a x); try exact V. exact I.
  - unfold frame_alts in Ha. repeat (destruct Ha as [<-|Ha]; [cbn [a_inj frame_memo_ok frame_headers]; try (now split)|]); [|destruct Ha].
    cbn [a_D transfer_D d_inner] in Hi. rewrite transfer_inner_eq in Hi. apply bind_ok in Hi as [[rem b] [_ H]]. injection H as _ <-.
    rewrite transfer_body_of. destruct rem; now split.
Qed.

(** ** [Transfer] decoded on its own *)
Lemma not_transfer {T} (f : T -> frame) (x : res (bytes * T)) r v : (forall y, f y <> FR_Transfer v) -> map_res f x <> Ok (r, FR_Transfer v).
Proof. destruct x as [[i y]| | |]; intros N [=]. now apply (N y). Qed.
Lemma transfer_dec_frame md inp r v : decode transfer_dec md inp = Ok (r, v) <-> frame_decode md inp = Ok (r, FR_Transfer v).
Proof.
  destruct inp as [|c inp]; [now split|].
  rewrite decode_cons, frame_decode_cons. unfold transfer_dec, composite_dec, frame_dec.
  destruct (validate_code c FC_DESCRIBED); cbn [bind]; try now split.
  destruct (decode descriptor_dec md inp) as [[i d]| | |]; cbn [bind]; try now split.
  rewrite <- frame_select_eq.
  assert (K : match d with DUlong val => val =? 20 | DSymbol sym => bytes_eqb (str_bytes sym) (s2b "amqp:transfer:list") end = true ->
    frame_select md d i = map_res FR_Transfer (decode_transfer_inner md i)).
  { destruct d as [n|sym]; cbn [frame_select]; [intros E; apply Z.eqb_eq in E; now subst|].
    unfold sym_is. intros E. apply bytes_eqb_eq in E. now rewrite !E. }
  assert (N : match d with DUlong val => val =? 20 | DSymbol sym => bytes_eqb (str_bytes sym) (s2b "amqp:transfer:list") end = false ->
    frame_select md d i <> Ok (r, FR_Transfer v)).
  { destruct d as [n|sym]; cbn [frame_select]; unfold sym_is; intros ->;
      repeat match goal with |- context [if ?b then _ else _] => destruct b end; try discriminate; now apply not_transfer. }
  destruct (match d with DUlong val => val =? 20 | DSymbol sym => bytes_eqb (str_bytes sym) (s2b "amqp:transfer:list") end).
  - rewrite (K eq_refl). destruct (decode_transfer_inner md i) as [[i' w]| | |]; unfold map_res; cbn [bind]; split; congruence.
  - split; [discriminate|]. intros E. now apply N in E.
Qed.
Lemma transfer_dec_other md d label r : wire_descriptor d label -> d <> DUlong 0 -> ~ names transfer_D d ->
  decode transfer_dec md (0x00 :: label ++ r) = Err (EInvalidDescriptor d).
Proof.
  intros W N HN. rewrite decode_cons. unfold transfer_dec, composite_dec. change (validate_code 0x00 FC_DESCRIBED) with (@Ok unit tt). cbn [bind].
  rewrite (descriptor_accepts md d label N W r). cbn [bind].
  destruct d as [n|a]; cbn [names transfer_D d_code d_name] in HN.
  - destruct (Z.eqb_spec n 20); [|reflexivity]. contradiction.
  - destruct (bytes_eqb _ _) eqn:E; [|reflexivity]. apply bytes_eqb_eq in E. contradiction.
Qed.
Lemma transfer_dec_trip md v : frame_sendable (FR_Transfer v) ->
  exists w, decode transfer_dec md (wbytes (transfer_enc v)) = Ok ([], w) /\ FR_Transfer w = frame_canon (FR_Transfer v).
Proof.
  intros H. exists (d_canon transfer_D v). split; [|reflexivity]. apply transfer_dec_frame.
  destruct H as (V & M & _ & E & S & D). pose proof (frame_emits _ V M E ltac:(unfold HEADER_LEN in S; lia)) as W.
  pose proof (frame_accepts md _ _ [] W D (fun _ => eq_refl)) as X. now rewrite app_nil_r in X.
Qed.
