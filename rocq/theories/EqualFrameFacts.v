(** Equality of messages and frames: proofs. *)

From Coq Require Import String Permutation.
From Verif Require Import Equal Io BaseFacts EncLaws Utf8Spec Valid Wire TypeSpec TypeFacts CompositeSpec CompositeFacts AllTypes AllTypesFacts CodecSpec EqFacts CodecFacts MapFacts RelayFacts EqualitySpec EqualityFacts MessageSpec MessageFacts FrameSpec FrameFacts EqualSpec EqualFacts.
Open Scope list_scope.
Open Scope Z_scope.

(** ** Messages *)
Lemma nested_at (l : list transfer_body) : Forall (eq_at carried_valid transfer_body_size transfer_body_eqb same_body) l.
Proof. apply Forall_forall. intros t _. exact (carried_at t). Qed.
Lemma in_message_at m : eq_at in_valid message_size in_message_eqb same_in_message m.
Proof.
  assert (V : forall x, in_valid x ->
    message_valid x /\ opt_prop (s_valid string_variant_map_S) (m_application_properties x) /\ all_prop body_hashed (mb_messages (m_body x))).
  { intros x [X1 X2]. cbn [body_hashed] in X2. split; [exact X1|]. split; [|apply X2]. destruct X2 as [X2 _]. destruct X1 as (_ & _ & _ & _ & X1 & _).
    destruct (m_application_properties x); cbn [opt_prop] in *; [now apply entries_hash|exact I]. }
  pose proof (message_at _ _ _ in_properties_at m (nested_at _)) as H. intros Ha. destruct (H (V _ Ha)) as [H1 H2].
  split; [exact H1|]. intros b Hb. destruct (H2 b (V _ Hb)) as (K1 & K2 & K3 & K4). repeat (split; [assumption|]). intros c Hc. apply K4. exact (V _ Hc).
Qed.
Lemma out_message_at m : eq_at out_valid message_size out_message_eqb same_out_message m.
Proof.
  assert (V : forall x, out_valid x ->
    message_valid x /\ opt_prop entries_valid (m_application_properties x) /\ all_prop body_hashed (mb_messages (m_body x))).
  { intros x [X1 X2]. split; [exact X1|]. split; [apply X1|exact X2]. }
  pose proof (message_at _ _ _ out_properties_at m (nested_at _)) as H. intros Ha. destruct (H (V _ Ha)) as [H1 H2].
  split; [exact H1|]. intros b Hb. destruct (H2 b (V _ Hb)) as (K1 & K2 & K3 & K4). repeat (split; [assumption|]). intros c Hc. apply K4. exact (V _ Hc).
Qed.

(** A message asked for its size differs from what it was. *)
Lemma opt_fits_nonneg s ops : enc_fits s ops -> 0 <= s.
Proof. intros [<- _]. apply zlen_nonneg. Qed.
Lemma message_fresh_positive m : message_valid m -> message_memo_ok m -> 0 < message_fresh_size m.
Proof.
  intros (V1 & V2 & V3 & V4 & V5 & V6 & V7 & V8 & V9 & V10) [_ M].
  destruct (body_len (m_body m) (proj2 (Forall_forall _ _) (fun t _ => all_measured t)) V7 V8 V9 V10 M) as (B & _ & B').
  pose proof (zlen_nonneg (wbytes (body_enc (m_body m)))) as BN.
  assert (XF : forall o, opt_prop (s_valid fields_S) o -> 0 <= opt_add (fun x => e_size (c_E fields_C) x + SECTION_PREFIX_LENGTH) o).
  { intros [x|] Ho; cbn [opt_add opt_prop] in *; [|lia]. apply Z.add_nonneg_nonneg; [|now vm_compute]. apply Z.lt_le_incl. apply (Z.lt_le_trans 0 1); [reflexivity|]. exact (proj2 (fields_el x Ho)). }
  assert (X1 : 0 <= opt_add (fun h => header_size h + SECTION_PREFIX_LENGTH) (m_header m)).
  { destruct (m_header m) as [x|]; cbn [opt_add opt_prop] in *; [|lia]. pose proof (opt_fits_nonneg _ _ (header_fits x V1)). unfold SECTION_PREFIX_LENGTH. lia. }
  assert (X4 : 0 <= opt_add properties_size (m_properties m)).
  { destruct (m_properties m) as [x|]; cbn [opt_add opt_prop] in *; [|lia]. exact (opt_fits_nonneg _ _ (properties_fits x V4)). }
  assert (X5 : 0 <= opt_add (fun x => e_size (c_E string_variant_map_C) x + SECTION_PREFIX_LENGTH) (m_application_properties m)).
  { destruct (m_application_properties m) as [x|]; cbn [opt_add opt_prop] in *; [|lia]. apply Z.add_nonneg_nonneg; [|now vm_compute]. apply Z.lt_le_incl. apply (Z.lt_le_trans 0 1); [reflexivity|]. exact (proj2 (entries_el x V5)). }
  pose proof (XF _ V2). pose proof (XF _ V3). pose proof (XF _ V6).
  unfold message_fresh_size, message_fresh_size_. cbv zeta. change (body_size_ transfer_body_size) with body_size.
  destruct (Z.eqb_spec (body_size (m_body m)) 0); unfold SECTION_PREFIX_LENGTH in *; lia.
Qed.
Lemma message_eqb_size appe a b : message_eqb_ transfer_body_eqb appe a b = true -> m_size a = m_size b.
Proof. unfold message_eqb_. rewrite !andb_true_iff. intros [_ H]. now apply Z.eqb_eq. Qed.
Lemma message_sized_memo m : message_valid m -> message_memo_ok m -> m_size m = 0 -> m_size (message_sized m) <> 0.
Proof.
  intros V M E. pose proof (message_fresh_positive m V M). unfold message_sized, message_sized_. rewrite E. cbn.
  change (message_fresh_size_ transfer_body_size m) with (message_fresh_size m). lia.
Qed.
Lemma message_sized_id m : m_size m <> 0 -> message_sized m = m.
Proof. intros H. unfold message_sized, message_sized_. now destruct (Z.eqb_spec (m_size m) 0). Qed.
Lemma in_message_asked m : in_valid m -> message_memo_ok m -> (in_message_eqb m (message_sized m) = true <-> m_size m <> 0).
Proof.
  intros V M. split.
  - intros E F. apply message_eqb_size in E. apply (message_sized_memo m (proj1 V) M F). congruence.
  - intros H. rewrite (message_sized_id m H). exact (proj1 (in_message_at m V)).
Qed.
Lemma out_message_asked m : out_valid m -> message_memo_ok m -> (out_message_eqb m (message_sized m) = true <-> m_size m <> 0).
Proof.
  intros V M. split.
  - intros E F. apply message_eqb_size in E. apply (message_sized_memo m (proj1 V) M F). congruence.
  - intros H. rewrite (message_sized_id m H). exact (proj1 (out_message_at m V)).
Qed.

(** ** Maps *)
Lemma map_order {K V} (KO : key K) (SK : tspec K) (SV : tspec V) QK QV : key_equivalence KO -> agrees_S SK QK -> agrees_S SV QV ->
  q_eqb QK = k_eqb KO -> forall l m, s_valid (map_S KO SK SV) l -> s_valid (map_S KO SK SV) m ->
  (map_eqb (q_eqb QK) (q_eqb QV) l m = true <->
   exists m', Permutation m m' /\ Forall2 (fun a b => q_same QK (fst a) (fst b) /\ q_same QV (snd a) (snd b)) l m').
Proof.
  intros KE AK AV E l m Hl Hm. pose proof (map_agrees_S KO SK SV QK QV KE AK AV E) as A.
  assert (P : forall x k v, s_valid (map_S KO SK SV) x -> In (k, v) x -> s_valid SK k /\ s_valid SV v /\ k_hashable KO k = true).
  { intros x k v [Hx _] I. rewrite Forall_forall in Hx. destruct (Hx _ I) as (? & ? & ?). auto. }
  assert (HH : forall x, s_valid (map_S KO SK SV) x -> Forall (fun kv => k_hashable KO (fst kv) = true) x).
  { intros x Hx. apply Forall_forall. intros [k v] I. now apply (P x k v). }
  split.
  - intros H. rewrite E in H. apply (map_eqb_found KO KE) in H as [L F].
    2, 3: now apply HH.
    2: apply Hm.
    destruct (matching KO KE (fun a b => q_eqb QV a b = true) l m (HH l Hl) (HH m Hm) (proj2 Hl) L F) as (m' & PM & M).
    exists m'. split; [exact PM|].
    assert (Q : forall k v, In (k, v) m' -> s_valid SK k /\ s_valid SV v).
    { intros k v I. apply (Permutation_in _ (Permutation_sym PM)) in I. destruct (P m k v Hm I) as (? & ? & _). auto. }
    assert (Q' : forall k v, In (k, v) l -> s_valid SK k /\ s_valid SV v).
    { intros k v I. destruct (P l k v Hl I) as (? & ? & _). auto. }
    clear - M Q Q' AK AV E. induction M as [|[k v] [k' v'] l m' [H1 H2] M IH]; constructor.
    + cbn [fst snd] in *. destruct (Q k' v' (or_introl eq_refl)), (Q' k v (or_introl eq_refl)). rewrite <- E in H1.
      split; [now apply (ag_same _ _ _ _ _ AK)|now apply (ag_same _ _ _ _ _ AV)].
    + apply IH; intros a b I; [apply Q|apply Q']; now right.
  - intros (m' & PM & M). apply (ag_same _ _ _ _ _ A l m Hl Hm). split.
    + rewrite (Permutation_length PM). clear - M. induction M; cbn [length]; congruence.
    + intros k v I. assert (X : exists y, In y m' /\ q_same QK k (fst y) /\ q_same QV v (snd y)).
      { clear - M I. induction M as [|a b l m' H M IH]; [easy|]. destruct I as [->|I].
        - exists b. split; [now left|exact H].
        - destruct (IH I) as (y & ? & ?). exists y. split; [now right|assumption]. }
      destruct X as ([k' v'] & X1 & X2 & X3). exists k', v'. split; [|now split]. now apply (Permutation_in _ (Permutation_sym PM)).
Qed.

(** ** Messages received *)
Lemma sections_in m : message_sendable m ->
  opt_prop (fun x => section_sendable (SEC_Header x)) (m_header m) /\
  opt_prop (fun x => section_sendable (SEC_DeliveryAnnotations x)) (m_delivery_annotations m) /\
  opt_prop (fun x => section_sendable (SEC_MessageAnnotations x)) (m_message_annotations m) /\
  opt_prop (fun x => section_sendable (SEC_Properties x)) (m_properties m) /\
  opt_prop (fun x => section_sendable (SEC_ApplicationProperties x)) (m_application_properties m) /\
  opt_prop (fun x => section_sendable (SEC_Footer x)) (m_footer m) /\
  Forall section_sendable (body_sections (m_body m)).
Proof.
  intros [H _]. unfold message_sections in H. rewrite !Forall_app in H. destruct H as (H1 & H2 & H3 & H4 & H5 & HB & H6).
  assert (P : forall A (f : A -> section) o, Forall section_sendable (opt_list f o) -> opt_prop (fun x => section_sendable (f x)) o).
  { intros A f [x|] Ho; [|exact I]. now inversion Ho. }
  repeat (split; [now apply P|]). destruct (body_sections (m_body m)); [constructor|exact HB].
Qed.
Lemma lossless_opt {T} (S : tspec T) Q (f : T -> section) o : agrees_S S Q ->
  (forall x, section_sendable (f x) -> s_valid S x /\ s_decodable S (s_canon S x)) ->
  opt_prop (fun x => section_sendable (f x)) o -> (opt_eqb (q_eqb Q) o (option_map (s_canon S) o) = true <-> opt_prop (q_lossless Q) o).
Proof.
  intros A HS. destruct o as [x|]; cbn [opt_prop opt_eqb option_map]; [|easy]. intros H. apply HS in H as [H1 H2]. now apply (ag_lossless _ _ _ _ _ A).
Qed.
Lemma canon_opt {T} (S : tspec T) Q (f : T -> section) o o' : agrees_S S Q ->
  (forall x, section_sendable (f x) -> s_valid S x /\ s_decodable S (s_canon S x)) ->
  opt_prop (fun x => section_sendable (f x)) o -> opt_prop (fun x => section_sendable (f x)) o' -> opt_eqb (q_eqb Q) o o' = true ->
  opt_eqb (q_eqb Q) (option_map (s_canon S) o) (option_map (s_canon S) o') = true.
Proof.
  intros A HS. destruct o as [x|], o' as [y|]; cbn [opt_prop opt_eqb option_map]; try easy. intros H H'. apply HS in H as [H1 H2], H' as [H1' H2'].
  now apply (ag_canon _ _ _ _ _ A).
Qed.
Lemma sendable_da x : section_sendable (SEC_DeliveryAnnotations x) -> s_valid fields_S x /\ s_decodable fields_S (s_canon fields_S x).
Proof. intros (H1 & _ & _ & H2). exact (conj H1 H2). Qed.
Lemma sendable_ma x : section_sendable (SEC_MessageAnnotations x) -> s_valid fields_S x /\ s_decodable fields_S (s_canon fields_S x).
Proof. intros (H1 & _ & _ & H2). exact (conj H1 H2). Qed.
Lemma sendable_footer x : section_sendable (SEC_Footer x) -> s_valid fields_S x /\ s_decodable fields_S (s_canon fields_S x).
Proof. intros (H1 & _ & _ & H2). exact (conj H1 H2). Qed.
Lemma sendable_app x : section_sendable (SEC_ApplicationProperties x) -> s_valid string_variant_map_S x /\ s_decodable string_variant_map_S (s_canon string_variant_map_S x).
Proof. intros (H1 & _ & _ & H2). exact (conj H1 H2). Qed.
Lemma sendable_header x : section_sendable (SEC_Header x) -> s_valid header_S x /\ s_decodable header_S (s_canon header_S x).
Proof. intros (H1 & _ & _ & H2). exact (conj H1 H2). Qed.
Lemma sendable_properties x : section_sendable (SEC_Properties x) -> s_valid properties_S x /\ s_decodable properties_S (s_canon properties_S x).
Proof. intros (H1 & _ & _ & H2). exact (conj H1 H2). Qed.
Lemma sendable_value x : section_sendable (SEC_AmqpValue x) -> s_valid variant_S x /\ s_decodable variant_S (s_canon variant_S x).
Proof. intros (H1 & _ & _ & H2). exact (conj H1 H2). Qed.
Lemma sendable_value_opt m : message_sendable m -> opt_prop (fun x => section_sendable (SEC_AmqpValue x)) (mb_value (m_body m)).
Proof.
  intros H. destruct (sections_in m H) as (_ & _ & _ & _ & _ & _ & B). unfold body_sections in B. rewrite !Forall_app in B. destruct B as (_ & _ & B & _).
  destruct (mb_value (m_body m)); [|exact I]. now inversion B.
Qed.
Lemma vec_eqb_nil {T} (e : T -> T -> bool) l : vec_eqb e l [] = true <-> l = [].
Proof. now destruct l. Qed.
Lemma in_message_kept m : message_sendable m -> (in_message_eqb m (received_message m) = true <-> message_kept m).
Proof.
  intros H. destruct (sections_in m H) as (H1 & H2 & H3 & H4 & H5 & H6 & _). pose proof (sendable_value_opt m H) as H7.
  destruct (sendable_body m (proj1 H)) as [HS _].
  pose proof (lossless_opt fields_S fields_Q SEC_DeliveryAnnotations _ fields_agrees sendable_da H2) as L2.
  pose proof (lossless_opt fields_S fields_Q SEC_MessageAnnotations _ fields_agrees sendable_ma H3) as L3.
  pose proof (lossless_opt properties_S properties_Q SEC_Properties _ properties_agrees sendable_properties H4) as L4.
  pose proof (lossless_opt string_variant_map_S fields_Q SEC_ApplicationProperties _ string_variant_map_agrees sendable_app H5) as L5.
  pose proof (lossless_opt fields_S fields_Q SEC_Footer _ fields_agrees sendable_footer H6) as L6.
  pose proof (lossless_opt variant_S variant_Q SEC_AmqpValue _ variant_agrees sendable_value H7) as L7.
  assert (L1' : opt_eqb header_eqb (m_header m) (option_map (s_canon header_S) (m_header m)) = true).
  { destruct (m_header m) as [h|]; [|reflexivity]. cbn [option_map opt_eqb opt_prop] in *. rewrite header_canon.
    apply (ag_refl _ _ _ _ _ header_agrees). apply (sendable_header h H1). }
  cbn [q_eqb fields_Q map_Q text_Q variant_Q header_Q properties_Q struct_Q] in *.
  unfold in_message_eqb, in_message_eqb_, message_eqb_, message_body_eqb_, received_message.
  cbn [m_message_format m_header m_delivery_annotations m_message_annotations m_properties m_application_properties m_footer m_body m_size received_body
    mb_data mb_sequence mb_messages mb_value].
  change (s_canon variant_S) with canon in *.
  rewrite !andb_true_iff, L2, L3, L4, L5, L6, L7, !vec_eqb_nil, (vec_eqb_eq _ bytes_eqb_eq), (opt_eqb_eq _ Z.eqb_eq), Z.eqb_eq. unfold message_kept.
  split.
  - intros ((((((((K1 & _) & K2) & K3) & K4) & K5) & K6) & ((KD & _) & KM) & K7) & KS). repeat (split; [assumption|]).
    rewrite KM in KD. cbn [map] in KD. rewrite app_nil_r in KD. destruct (mb_data (m_body m)); [|now left]. right. destruct (mb_value (m_body m)); [discriminate|discriminate KD].
  - intros (K1 & KS & K2 & K3 & K4 & K5 & K6 & K7 & _ & KM & KD). repeat (split; try assumption). rewrite KM. cbn [map]. rewrite app_nil_r.
    destruct (mb_data (m_body m)); [|reflexivity]. destruct (mb_value (m_body m)); [reflexivity|]. now destruct KD.
Qed.
Lemma received_data a b : mb_data a = mb_data b -> opt_eqb variant_eqb (mb_value a) (mb_value b) = true ->
  length (mb_messages a) = length (mb_messages b) ->
  (mb_data (received_body a) = mb_data (received_body b) <-> map payload (mb_messages a) = map payload (mb_messages b)).
Proof.
  intros D V L. cbn [received_body mb_data]. rewrite D. destruct (mb_data b) as [|d l].
  - destruct (mb_value a), (mb_value b); try discriminate V; cbn [app].
    + destruct (mb_messages a), (mb_messages b); easy.
    + destruct (mb_messages a), (mb_messages b); easy.
  - split; [|now intros ->]. cbn [app]. intros E. injection E as E. now apply app_inv_head in E.
Qed.
Lemma vec_eqb_length {T} (e : T -> T -> bool) l m : vec_eqb e l m = true -> length l = length m.
Proof. revert m. induction l as [|x l IH]; intros [|y m]; cbn [vec_eqb length]; try easy. intros H. apply andb_true_iff in H as [_ H]. f_equal. auto. Qed.
Lemma in_message_received a b : message_sendable a -> message_sendable b -> in_message_eqb a b = true ->
  (in_message_eqb (received_message a) (received_message b) = true <-> map payload (mb_messages (m_body a)) = map payload (mb_messages (m_body b))).
Proof.
  intros HA HB. destruct (sections_in a HA) as (A1 & A2 & A3 & A4 & A5 & A6 & _). pose proof (sendable_value_opt a HA) as A7.
  destruct (sections_in b HB) as (B1 & B2 & B3 & B4 & B5 & B6 & _). pose proof (sendable_value_opt b HB) as B7.
  pose proof (canon_opt header_S header_Q SEC_Header _ _ header_agrees sendable_header A1 B1) as L1.
  pose proof (canon_opt fields_S fields_Q SEC_DeliveryAnnotations _ _ fields_agrees sendable_da A2 B2) as L2.
  pose proof (canon_opt fields_S fields_Q SEC_MessageAnnotations _ _ fields_agrees sendable_ma A3 B3) as L3.
  pose proof (canon_opt properties_S properties_Q SEC_Properties _ _ properties_agrees sendable_properties A4 B4) as L4.
  pose proof (canon_opt string_variant_map_S fields_Q SEC_ApplicationProperties _ _ string_variant_map_agrees sendable_app A5 B5) as L5.
  pose proof (canon_opt fields_S fields_Q SEC_Footer _ _ fields_agrees sendable_footer A6 B6) as L6.
  pose proof (canon_opt variant_S variant_Q SEC_AmqpValue _ _ variant_agrees sendable_value A7 B7) as L7.
  cbn [q_eqb fields_Q map_Q text_Q variant_Q header_Q properties_Q struct_Q] in *.
  unfold in_message_eqb, in_message_eqb_, message_eqb_, message_body_eqb_, received_message.
  cbn [m_message_format m_header m_delivery_annotations m_message_annotations m_properties m_application_properties m_footer m_body m_size mb_sequence mb_messages mb_value].
  change (s_canon variant_S) with canon in *. change (mb_value (received_body (m_body a))) with (option_map canon (mb_value (m_body a))).
  change (mb_value (received_body (m_body b))) with (option_map canon (mb_value (m_body b))).
  rewrite !andb_true_iff, !(vec_eqb_eq _ bytes_eqb_eq).
  intros ((((((((K0 & K1) & K2) & K3) & K4) & K5) & K6) & ((KD & _) & KM) & K7) & _).
  rewrite (received_data _ _ KD K7 (vec_eqb_length _ _ _ KM)). cbn [opt_eqb received_body mb_sequence mb_messages vec_eqb]. tauto.
Qed.
Lemma pairs_map l m : s_valid string_variant_map_S l -> s_valid string_variant_map_S m ->
  vec_eqb (pair_eqb str_eqb variant_eqb) l m = true -> map_eqb str_eqb variant_eqb l m = true.
Proof.
  intros Hl Hm H. apply (map_order str_key str_S variant_S text_Q variant_Q str_key_equivalence str_agrees variant_agrees eq_refl l m Hl Hm).
  exists m. split; [reflexivity|]. destruct Hl as [Hl _], Hm as [Hm _]. revert m Hm H.
  induction Hl as [|x l (X1 & _ & X2) Hl IH]; intros [|y m] Hm; cbn [vec_eqb]; try easy.
  inversion Hm as [|? ? (Y1 & _ & Y2) Hm']; subst. unfold pair_eqb at 1. rewrite !andb_true_iff. intros [[E1 E2] E3]. constructor; [|auto].
  split; [now apply (ag_same _ _ _ _ _ str_agrees)|now apply (ag_same _ _ _ _ _ variant_agrees)].
Qed.
Lemma in_of_out a b : message_sendable a -> message_sendable b -> out_message_eqb a b = true -> in_message_eqb a b = true.
Proof.
  intros HA HB. destruct (sections_in a HA) as (_ & _ & _ & _ & A5 & _). destruct (sections_in b HB) as (_ & _ & _ & _ & B5 & _).
  unfold in_message_eqb, out_message_eqb, in_message_eqb_, out_message_eqb_, message_eqb_. rewrite !andb_true_iff.
  intros ((((((((K0 & K1) & K2) & K3) & K4) & K5) & K6) & K7) & K8). repeat (split; try assumption).
  destruct (m_application_properties a), (m_application_properties b); try easy. cbn [opt_eqb opt_prop] in *.
  apply pairs_map; [now apply sendable_app|now apply sendable_app|exact K5].
Qed.
Lemma out_message_received a b : message_sendable a -> message_sendable b -> out_message_eqb a b = true ->
  (in_message_eqb (received_message a) (received_message b) = true <-> map payload (mb_messages (m_body a)) = map payload (mb_messages (m_body b))).
Proof. intros HA HB H. apply in_message_received; [assumption..|]. now apply in_of_out. Qed.

(** ** Transfer *)
Lemma transfer_columns_agree : columns_agree transfer_table transfer_columns.
Proof. unfold transfer_table, transfer_columns. all_agree. Qed.
Definition head_agrees := columns_agrees transfer_table transfer_columns transfer_columns_agree.
Lemma transfer_eqb_columns a b : transfer_eqb a b = columns_eqb transfer_table transfer_columns (transfer_to a) (transfer_to b) &&
  opt_eqb transfer_body_eqb (transfer_body_f a) (transfer_body_f b).
Proof.
  cbv beta iota delta [transfer_eqb columns_eqb transfer_table transfer_columns transfer_to fst snd]. rewrite ?andb_true_r, ?andb_assoc. reflexivity.
Qed.
Definition transfer_value (v : transfer_t) : Prop :=
  each_field (@s_valid) transfer_table (transfer_to v) /\ opt_prop carried_valid (transfer_body_f v).
Definition transfer_sum (p : Z * option Z) : Z := composite_size (fst p) + match snd p with Some s => s | None => 0 end.
Local Strategy expand [transfer_size transfer_sum].
Lemma transfer_size_def : transfer_size =
  fun v => composite_size (transfer_content_size v) + match transfer_body_f v with Some b => transfer_body_size b | None => 0 end.
Proof. reflexivity. Qed.
Lemma transfer_sum_def n b : transfer_sum (n, b) = composite_size n + match b with Some s => s | None => 0 end.
Proof. reflexivity. Qed.
Lemma transfer_size_sum v : transfer_size v = transfer_sum (size_fields transfer_table 0 (transfer_to v), option_map transfer_body_size (transfer_body_f v)).
Proof. rewrite transfer_size_def, transfer_sum_def, head_content. f_equal. now destruct (transfer_body_f v). Qed.
Lemma transfer_at v : eq_at transfer_value transfer_size transfer_eqb (q_same transfer_Q) v.
Proof.
  pose proof (eq_at_proj transfer_to _ _ _ _ v (eq_at_of _ _ _ _ _ head_agrees (transfer_to v))) as H1.
  pose proof (eq_at_proj transfer_body_f _ _ _ _ v (opt_at _ _ _ _ carried_at (transfer_body_f v))) as H2.
  eapply (eq_at_ext _ _ _ _ _ _ _ _ transfer_sum
    _ (eq_at_both _ _ _ _ _ _ _ _ _ H1 H2)).
  - intros x [X1 X2]. now split.
  - exact transfer_size_sum.
  - intros x y. apply transfer_eqb_columns.
  - intros x y. reflexivity.
Qed.
Lemma received_payload_inj p q : received_payload p = received_payload q <-> p = q.
Proof. split; [|now intros ->]. destruct p, q; cbn [received_payload]; congruence. Qed.
Lemma received_payload_eqb p q : opt_eqb transfer_body_eqb (received_payload p) (received_payload q) = true <-> p = q.
Proof. destruct p as [|x p], q as [|y q]; cbn [received_payload opt_eqb transfer_body_eqb]; try easy. apply bytes_eqb_eq. Qed.
Lemma transfer_lossless v : each_field (@s_valid) transfer_table (transfer_to v) ->
  each_field (@s_decodable) transfer_table (canon_fields transfer_table (transfer_to v)) ->
  (transfer_eqb v (d_canon transfer_D v) = true <-> q_lossless transfer_Q v).
Proof.
  intros V D. rewrite transfer_eqb_columns. cbn [transfer_D d_canon q_lossless transfer_Q]. rewrite transfer_to_of, transfer_body_of, andb_true_iff.
  rewrite (ag_lossless _ _ _ _ _ head_agrees (transfer_to v) V D). cbn [q_lossless columns_Q].
  assert (E : opt_eqb transfer_body_eqb (transfer_body_f v) (received_payload (transfer_payload v)) = true <->
    opt_prop (fun t => exists b, t = TBData b /\ b <> []) (transfer_body_f v)).
  { unfold transfer_payload. destruct (transfer_body_f v) as [[b|m|m]|]; cbn [opt_prop].
    - change (payload (TBData b)) with (b ++ []). rewrite app_nil_r. destruct b as [|x b]; cbn [received_payload opt_eqb].
      + split; [easy|]. intros (b & E & N). injection E as <-. easy.
      + split; [|intros _; now apply bytes_eqb_eq]. intros _. now exists (x :: b).
    - split; [|intros (b & E & _); discriminate]. now destruct (payload (TBMessageIn m)).
    - split; [|intros (b & E & _); discriminate]. now destruct (payload (TBMessageOut m)).
    - easy. }
  now rewrite E.
Qed.
Lemma transfer_received a b : each_field (@s_valid) transfer_table (transfer_to a) -> each_field (@s_valid) transfer_table (transfer_to b) ->
  each_field (@s_decodable) transfer_table (canon_fields transfer_table (transfer_to a)) ->
  each_field (@s_decodable) transfer_table (canon_fields transfer_table (transfer_to b)) -> transfer_eqb a b = true ->
  (transfer_eqb (d_canon transfer_D a) (d_canon transfer_D b) = true <-> transfer_payload a = transfer_payload b).
Proof.
  intros VA VB DA DB. rewrite !transfer_eqb_columns. cbn [transfer_D d_canon]. rewrite !transfer_to_of, !transfer_body_of, !andb_true_iff. intros [H _].
  rewrite received_payload_eqb. pose proof (ag_canon _ _ _ _ _ head_agrees _ _ VA VB DA DB H). tauto.
Qed.

(** ** Frames *)
Lemma frame_at_of {X} (D : dspec X) Q (inj : X -> frame) : agrees_D D Q -> (forall x, frame_value (inj x) -> d_valid D x) ->
  (forall x, frame_size (inj x) = e_size (d_E D) x) -> (forall x y, frame_eqb (inj x) (inj y) = q_eqb Q x y) ->
  (forall x y, q_same frame_Q (inj x) (inj y) <-> q_same Q x y) ->
  (forall f, (exists y, f = inj y) \/ forall x, frame_eqb (inj x) f = false /\ ~ q_same frame_Q (inj x) f) ->
  forall x, eq_at frame_value frame_size frame_eqb (q_same frame_Q) (inj x).
Proof.
  intros A HV HS HE HQ HO x Hx. split; [rewrite HE; apply (ag_refl _ _ _ _ _ A); auto|]. intros b Hb. destruct (HO b) as [[y ->]|N].
  - rewrite HE, HQ, !HS, HE. split; [apply (ag_same _ _ _ _ _ A); auto|]. split; [apply (ag_sym _ _ _ _ _ A); auto|].
    split; [apply (ag_size _ _ _ _ _ A); auto|]. intros c Hc. destruct (HO c) as [[z ->]|N].
    + rewrite !HE. apply (ag_trans _ _ _ _ _ A); auto.
    + destruct (N y) as [-> _]. easy.
  - destruct (N x) as [-> N']. split; [easy|]. easy.
Qed.
Ltac frame_at_tac A K C :=
  eapply frame_at_of; [exact A|intros x Hx; exact (proj1 Hx)|
    intros x; lazy [frame_size composite_D d_E k_codec K c_E C e_size]; reflexivity|reflexivity|reflexivity|
    intros f; destruct f; first [left; eexists; reflexivity|right; intros x; split; [reflexivity|intros []]]].
Lemma frame_at f : eq_at frame_value frame_size frame_eqb (q_same frame_Q) f.
Proof.
  destruct f as [x|x|x|x|x|x|x|x|x|]; [revert x..|].
  - frame_at_tac open_agrees_D open_K open_C.
  - frame_at_tac begin_agrees_D begin_K begin_C.
  - frame_at_tac attach_agrees_D attach_K attach_C.
  - frame_at_tac flow_agrees_D flow_K flow_C.
  - intros x Hx.
    assert (V : forall y, frame_value (FR_Transfer y) -> transfer_value y).
    { intros y [[Y1 Y2] Y3]. split; [exact Y1|]. destruct (transfer_body_f y); [now split|exact I]. }
    destruct (transfer_at x (V _ Hx)) as [H1 H2]. split; [exact H1|].
    intros b Hb. destruct b as [y|y|y|y|y|y|y|y|y|]; try (split; [split; [discriminate|intros []]|]; repeat (split; [discriminate|]); discriminate).
    destruct (H2 y (V _ Hb)) as (K1 & K2 & K3 & K4). split; [exact K1|]. split; [exact K2|]. split; [exact K3|].
    intros [z|z|z|z|z|z|z|z|z|] Hz; try discriminate. exact (K4 z (V _ Hz)).
  - frame_at_tac disposition_agrees_D disposition_K disposition_C.
  - frame_at_tac detach_agrees_D detach_K detach_C.
  - frame_at_tac end_agrees_D end_K end_C.
  - frame_at_tac close_agrees_D close_K close_C.
  - intros _. split; [reflexivity|]. intros [y|y|y|y|y|y|y|y|y|] _; try (split; [split; [discriminate|intros []]|]; repeat (split; [discriminate|]); discriminate).
    split; [easy|]. split; [easy|]. split; [easy|]. intros c _ _ H. exact H.
Qed.
Lemma frame_lossless f : frame_valid f -> frame_decodable (frame_canon f) -> (frame_eqb f (frame_canon f) = true <-> q_lossless frame_Q f).
Proof.
  destruct f as [x|x|x|x|x|x|x|x|x|]; intros V D.
  - exact (ag_lossless _ _ _ _ _ open_agrees_D x V D).
  - exact (ag_lossless _ _ _ _ _ begin_agrees_D x V D).
  - exact (ag_lossless _ _ _ _ _ attach_agrees_D x V D).
  - exact (ag_lossless _ _ _ _ _ flow_agrees_D x V D).
  - apply (transfer_lossless x); [exact (proj1 V)|].
    change (frame_decodable (FR_Transfer (d_canon transfer_D x))) in D. change (each_field (@s_decodable) transfer_table (transfer_to (d_canon transfer_D x))) in D.
    cbn [transfer_D d_canon] in D. now rewrite transfer_to_of in D.
  - exact (ag_lossless _ _ _ _ _ disposition_agrees_D x V D).
  - exact (ag_lossless _ _ _ _ _ detach_agrees_D x V D).
  - exact (ag_lossless _ _ _ _ _ end_agrees_D x V D).
  - exact (ag_lossless _ _ _ _ _ close_agrees_D x V D).
  - easy.
Qed.
Lemma frame_received f g : frame_valid f -> frame_valid g -> frame_decodable (frame_canon f) -> frame_decodable (frame_canon g) -> frame_eqb f g = true ->
  (frame_eqb (frame_canon f) (frame_canon g) = true <-> frame_payload f = frame_payload g).
Proof.
  assert (P : forall (b : bool) (p : bytes), b = true -> (b = true <-> p = p)) by easy.
  destruct f as [x|x|x|x|x|x|x|x|x|], g as [y|y|y|y|y|y|y|y|y|]; intros V W D E H; try discriminate H.
  - exact (P _ _ (ag_canon _ _ _ _ _ open_agrees_D x y V W D E H)).
  - exact (P _ _ (ag_canon _ _ _ _ _ begin_agrees_D x y V W D E H)).
  - exact (P _ _ (ag_canon _ _ _ _ _ attach_agrees_D x y V W D E H)).
  - exact (P _ _ (ag_canon _ _ _ _ _ flow_agrees_D x y V W D E H)).
  - apply (transfer_received x y); [exact (proj1 V)|exact (proj1 W)|..|exact H].
    + change (each_field (@s_decodable) transfer_table (transfer_to (d_canon transfer_D x))) in D.
      cbn [transfer_D d_canon] in D. now rewrite transfer_to_of in D.
    + change (each_field (@s_decodable) transfer_table (transfer_to (d_canon transfer_D y))) in E.
      cbn [transfer_D d_canon] in E. now rewrite transfer_to_of in E.
  - exact (P _ _ (ag_canon _ _ _ _ _ disposition_agrees_D x y V W D E H)).
  - exact (P _ _ (ag_canon _ _ _ _ _ detach_agrees_D x y V W D E H)).
  - exact (P _ _ (ag_canon _ _ _ _ _ end_agrees_D x y V W D E H)).
  - exact (P _ _ (ag_canon _ _ _ _ _ close_agrees_D x y V W D E H)).
  - easy.
Qed.

(** For the examples. *)
Lemma ascii_utf8 b : forallb (fun c => (0 <=? c) && (c <? 128)) b = true -> is_utf8 b.
Proof.
  intros H. exists b. induction b as [|c b IH]; [split; [constructor|reflexivity]|]. cbn [forallb] in H. apply andb_true_iff in H as [Hc H].
  destruct (IH H) as [H1 H2]. split; [constructor; [left; lia|exact H1]|]. cbn [flat_map]. unfold utf8_encode at 1.
  assert (c <? 0x80 = true) as -> by lia. cbn [app]. congruence.
Qed.

(** ** As claimed *)
Lemma compared_same {T} (S : tspec T) Q : compared S Q -> forall a b, s_valid S a -> s_valid S b -> (q_eqb Q a b = true <-> q_same Q a b).
Proof. intros H. exact (ag_same _ _ _ _ _ (compared_agrees S Q H)). Qed.
Lemma compared_equivalence {T} (S : tspec T) Q : compared S Q -> (forall a, s_valid S a -> q_eqb Q a a = true) /\
  (forall a b, s_valid S a -> s_valid S b -> q_eqb Q a b = true -> q_eqb Q b a = true) /\
  (forall a b c, s_valid S a -> s_valid S b -> s_valid S c -> q_eqb Q a b = true -> q_eqb Q b c = true -> q_eqb Q a c = true).
Proof. intros H. destruct (compared_agrees S Q H) as [a1 a2 a3 a4 a5 a6 a7 a8 a9]. auto. Qed.
Lemma compared_size {T} (S : tspec T) Q : compared S Q -> forall a b, s_valid S a -> s_valid S b -> q_eqb Q a b = true ->
  s_size S a = s_size S b /\ zlen (s_bytes S a) = zlen (s_bytes S b).
Proof.
  intros H a b Ha Hb E. pose proof (ag_size _ _ _ _ _ (compared_agrees S Q H) a b Ha Hb E) as ES. split; [exact ES|].
  pose proof (type_good S (compared_type S Q H)) as G.
  destruct (g_enc S G a Ha) as [[Ea _] _], (g_enc S G b Hb) as [[Eb _] _]. unfold s_bytes, s_size in *. congruence.
Qed.
Lemma compared_round_trip {T} (S : tspec T) Q : compared S Q -> forall md v rest, s_valid S v -> s_encodable S v -> s_size S v < 2 ^ 32 ->
  s_decodable S (s_canon S v) -> exists w, decode (s_dec S) md (s_bytes S v ++ rest) = Ok (rest, w) /\ (q_eqb Q v w = true <-> q_lossless Q v) /\ q_lossless Q w.
Proof.
  intros H md v rest H1 H2 H3 H4. exists (s_canon S v). split; [now apply type_round_trip; [apply (compared_type S Q)|..]|].
  split; [now apply (ag_lossless _ _ _ _ _ (compared_agrees S Q H))|apply (ag_canon_lossless _ _ _ _ _ (compared_agrees S Q H))].
Qed.
Lemma compared_received {T} (S : tspec T) Q : compared S Q -> forall md a b r r',
  s_valid S a -> s_encodable S a -> s_size S a < 2 ^ 32 -> s_decodable S (s_canon S a) ->
  s_valid S b -> s_encodable S b -> s_size S b < 2 ^ 32 -> s_decodable S (s_canon S b) -> q_eqb Q a b = true ->
  exists a' b', decode (s_dec S) md (s_bytes S a ++ r) = Ok (r, a') /\ decode (s_dec S) md (s_bytes S b ++ r') = Ok (r', b') /\ q_eqb Q a' b' = true.
Proof.
  intros H md a b r r' A1 A2 A3 A4 B1 B2 B3 B4 E. pose proof (compared_type S Q H) as HT. exists (s_canon S a), (s_canon S b).
  split; [now apply type_round_trip|]. split; [now apply type_round_trip|]. now apply (ag_canon _ _ _ _ _ (compared_agrees S Q H)).
Qed.
Lemma compared_all K : In K all_composites -> exists Q, compared (composite_S K) Q.
Proof.
  intros H. unfold all_composites in H.
  repeat (destruct H as [<-|H]; [eexists; constructor|]). destruct H.
Qed.
Lemma fields_order l m :
  (s_valid fields_S l -> s_valid fields_S m -> (q_eqb fields_Q l m = true <->
     exists m', Permutation m m' /\ Forall2 (fun a b => str_bytes (fst a) = str_bytes (fst b) /\ same_value (snd a) (snd b)) l m')) /\
  (s_valid string_variant_map_S l -> s_valid string_variant_map_S m -> (q_eqb fields_Q l m = true <->
     exists m', Permutation m m' /\ Forall2 (fun a b => str_bytes (fst a) = str_bytes (fst b) /\ same_value (snd a) (snd b)) l m')).
Proof.
  exact (conj (map_order str_key symbol_S variant_S text_Q variant_Q str_key_equivalence symbol_agrees variant_agrees eq_refl l m)
    (map_order str_key str_S variant_S text_Q variant_Q str_key_equivalence str_agrees variant_agrees eq_refl l m)).
Qed.
Lemma vmap_order l m : s_valid vmap_S l -> s_valid vmap_S m -> (q_eqb vmap_Q l m = true <->
  exists m', Permutation m m' /\ Forall2 (fun a b => same_value (fst a) (fst b) /\ same_value (snd a) (snd b)) l m').
Proof. exact (map_order variant_key variant_S variant_S variant_Q variant_Q variant_key_equivalence variant_agrees variant_agrees eq_refl l m). Qed.
Lemma at_same {T X} v (s : T -> X) e m : (forall a, eq_at v s e m a) -> forall a b, v a -> v b -> (e a b = true <-> m a b).
Proof. intros H a b Ha Hb. apply (H a Ha). exact Hb. Qed.
Lemma at_equivalence {T X} v (s : T -> X) e m : (forall a, eq_at v s e m a) -> (forall a, v a -> e a a = true) /\
  (forall a b, v a -> v b -> e a b = true -> e b a = true) /\ (forall a b c, v a -> v b -> v c -> e a b = true -> e b c = true -> e a c = true).
Proof.
  intros H. split; [|split].
  - intros a Ha. exact (proj1 (H a Ha)).
  - intros a b Ha Hb. exact (proj1 (proj2 (proj2 (H a Ha) b Hb))).
  - intros a b c Ha Hb Hc. exact (proj2 (proj2 (proj2 (proj2 (H a Ha) b Hb))) c Hc).
Qed.
Lemma at_size {T X} v (s : T -> X) e m : (forall a, eq_at v s e m a) -> forall a b, v a -> v b -> e a b = true -> s a = s b.
Proof. intros H a b Ha Hb. exact (proj1 (proj2 (proj2 (proj2 (H a Ha) b Hb)))). Qed.
Lemma in_message_trip md m : message_sendable m -> exists r m', message_decode md (message_bytes m) = Ok (r, m') /\ (in_message_eqb m m' = true <-> message_kept m).
Proof. intros H. do 2 eexists. split; [now apply message_round_trip|]. now apply in_message_kept. Qed.
Lemma messages_received md a b : message_sendable a -> message_sendable b -> in_message_eqb a b = true \/ out_message_eqb a b = true ->
  exists r r' a' b', message_decode md (message_bytes a) = Ok (r, a') /\ message_decode md (message_bytes b) = Ok (r', b') /\
    (in_message_eqb a' b' = true <-> map payload (mb_messages (m_body a)) = map payload (mb_messages (m_body b))).
Proof.
  intros HA HB H. do 4 eexists. split; [now apply message_round_trip|]. split; [now apply message_round_trip|].
  destruct H; [now apply in_message_received|now apply out_message_received].
Qed.
Lemma amqp_frame_equivalence a b c : frame_value (af_performative a) -> frame_value (af_performative b) -> frame_value (af_performative c) ->
  amqp_frame_eqb a a = true /\ (amqp_frame_eqb a b = true <-> af_channel_id a = af_channel_id b /\ q_same frame_Q (af_performative a) (af_performative b)) /\
  (amqp_frame_eqb a b = true -> amqp_frame_eqb b a = true) /\
  (amqp_frame_eqb a b = true -> amqp_frame_eqb b c = true -> amqp_frame_eqb a c = true).
Proof.
  intros Ha Hb Hc. destruct (frame_at _ Ha) as [H1 H2]. destruct (H2 _ Hb) as (K1 & K2 & _ & K4). specialize (K4 _ Hc).
  unfold amqp_frame_eqb. rewrite !andb_true_iff, !Z.eqb_eq. split; [now split|]. split; [now rewrite K1|]. split; [intros []; auto|]. intros [] []. split; [congruence|auto].
Qed.
Lemma amqp_frame_sizes a b : frame_value (af_performative a) -> frame_value (af_performative b) -> amqp_frame_eqb a b = true ->
  amqp_frame_size a = amqp_frame_size b.
Proof.
  intros Ha Hb H. unfold amqp_frame_eqb in H. apply andb_true_iff in H as [_ H]. unfold amqp_frame_size. f_equal. exact (at_size _ _ _ _ frame_at _ _ Ha Hb H).
Qed.
From Verif Require Import FramingFacts.
Lemma amqp_frame_trip md ch f : 0 <= ch < 2 ^ 16 -> frame_sendable f ->
  exists body g, wbytes (amqp_frame_enc (MkAmqpFrame ch f)) = be4 (4 + zlen body) ++ body /\ amqp_frame_decode md body = Ok ([], g) /\
    (amqp_frame_eqb (MkAmqpFrame ch f) g = true <-> q_lossless frame_Q f).
Proof.
  intros Hc H. destruct (amqp_round_trip md ch f Hc H) as (body & E & _ & _ & _ & D). exists body, (MkAmqpFrame ch (frame_canon f)).
  split; [exact E|]. split; [exact D|]. destruct H as (V & _ & _ & _ & _ & DC). unfold amqp_frame_eqb. cbn [af_channel_id af_performative].
  rewrite Z.eqb_refl. cbn [andb]. now apply frame_lossless.
Qed.
Lemma sasl_frame_trip md b : sasl_sendable b ->
  exists body g, wbytes (sasl_frame_enc (MkSaslFrame b)) = be4 (4 + zlen body) ++ body /\ sasl_frame_decode md body = Ok ([], g) /\
    sasl_frame_eqb (MkSaslFrame b) g = true.
Proof.
  intros H. destruct (sasl_round_trip md b H) as (body & E & _ & _ & _ & D). exists body, (MkSaslFrame (s_canon sasl_frame_body_S b)).
  split; [exact E|]. split; [exact D|]. destruct H as (V & _ & _ & DC). unfold sasl_frame_eqb. cbn [sf_body].
  apply (ag_lossless _ _ _ _ _ sasl_frame_body_agrees b V DC). assert (A : forall T (l : list T), Forall always l) by (intros T l; apply Forall_forall; easy).
  assert (O : forall T (o : option T), opt_prop always o) by (now intros T []).
  destruct b; cbn; repeat split; auto.
Qed.
Lemma amqp_frames_received md ch f g : 0 <= ch < 2 ^ 16 -> frame_sendable f -> frame_sendable g -> frame_eqb f g = true ->
  exists bf bg f' g', wbytes (amqp_frame_enc (MkAmqpFrame ch f)) = be4 (4 + zlen bf) ++ bf /\ amqp_frame_decode md bf = Ok ([], f') /\
    wbytes (amqp_frame_enc (MkAmqpFrame ch g)) = be4 (4 + zlen bg) ++ bg /\ amqp_frame_decode md bg = Ok ([], g') /\
    (amqp_frame_eqb f' g' = true <-> frame_payload f = frame_payload g).
Proof.
  intros Hc HF HG H. destruct (amqp_round_trip md ch f Hc HF) as (bf & Ef & _ & _ & _ & Df). destruct (amqp_round_trip md ch g Hc HG) as (bg & Eg & _ & _ & _ & Dg).
  exists bf, bg, (MkAmqpFrame ch (frame_canon f)), (MkAmqpFrame ch (frame_canon g)). repeat (split; [assumption|]).
  destruct HF as (V & _ & _ & _ & _ & D), HG as (W & _ & _ & _ & _ & E). unfold amqp_frame_eqb. cbn [af_channel_id af_performative].
  rewrite Z.eqb_refl. cbn [andb]. now apply frame_received.
Qed.
