(** Facts about messages: sizes, memos, sections. *)

From Verif Require Import Frames BaseFacts Utf8Spec Valid Wire PrimFacts DecLaws EncLaws TypeSpec TypeFacts CompositeSpec CompositeFacts
  AllTypes AllTypesFacts CodecSpec EqFacts CodecFacts CompositeReads MessageSpec.
Open Scope list_scope.
Open Scope Z_scope.

(** ** Induction over nested messages *)
Section Induction.
  Variable P : transfer_body -> Prop.
  Hypothesis HD : forall b, P (TBData b).
  Hypothesis HI : forall m, Forall P (mb_messages (m_body m)) -> P (TBMessageIn m).
  Hypothesis HO : forall m, Forall P (mb_messages (m_body m)) -> P (TBMessageOut m).
  Fixpoint transfer_body_nested (t : transfer_body) : P t :=
    match t with
    | TBData b => HD b
    | TBMessageIn m => HI m ((fix go l : Forall P l :=
        match l with [] => Forall_nil _ | x :: r => Forall_cons _ (transfer_body_nested x) (go r) end) (mb_messages (m_body m)))
    | TBMessageOut m => HO m ((fix go l : Forall P l :=
        match l with [] => Forall_nil _ | x :: r => Forall_cons _ (transfer_body_nested x) (go r) end) (mb_messages (m_body m)))
    end.
End Induction.

(** ** Sizes *)
Lemma fields_type : amqp_type fields_S.
Proof. apply ty_map; constructor. Qed.
Lemma header_type : amqp_type header_S.
Proof. apply (ty_composite header_K). unfold all_composites. repeat (first [left; reflexivity|right]). Qed.
Lemma properties_type : amqp_type properties_S.
Proof. apply (ty_composite properties_K). unfold all_composites. repeat (first [left; reflexivity|right]). Qed.
Lemma fields_el : enc_lawful (s_valid fields_S) (c_E fields_C).
Proof. exact (g_enc fields_S (type_good _ fields_type)). Qed.
Lemma entries_el : enc_lawful entries_valid (c_E string_variant_map_C).
Proof. intros m H. apply (map_el str_ok variant_ok str_E variant_E str_el variant_el m). exact H. Qed.
Lemma header_el : enc_lawful (s_valid header_S) (MkEnc header_size header_enc).
Proof. exact (g_enc header_S (type_good _ header_type)). Qed.
Lemma properties_el : enc_lawful (s_valid properties_S) (MkEnc properties_size properties_enc).
Proof. exact (g_enc properties_S (type_good _ properties_type)). Qed.
Lemma lawful_fits {T} (ok : T -> Prop) size ops : enc_lawful ok (MkEnc size ops) -> forall v, ok v -> enc_fits (size v) (ops v).
Proof. intros H v Hv. exact (proj1 (H v Hv)). Qed.
Lemma header_fits x : s_valid header_S x -> enc_fits (header_size x) (header_enc x).
Proof. exact (lawful_fits _ _ _ header_el x). Qed.
Lemma properties_fits x : s_valid properties_S x -> enc_fits (properties_size x) (properties_enc x).
Proof. exact (lawful_fits _ _ _ properties_el x). Qed.

Definition present {A} (o : option A) : Z := match o with Some _ => 1 | None => 0 end.
Lemma opt_fits {A} (ok : A -> Prop) (sz : A -> Z) (f : A -> list wop) o :
  (forall x, ok x -> enc_fits (sz x) (f x)) -> opt_prop ok o -> enc_fits (opt_add sz o) (opt_ops f o).
Proof. intros H Ho. destruct o; cbn; [now apply H|apply fits_nil]. Qed.
Lemma prefix_fits c s ops : 0 < c < 256 -> enc_fits s ops -> enc_fits (s + SECTION_PREFIX_LENGTH) (descriptor_enc (DUlong c) ++ ops).
Proof.
  intros Hc H. unfold SECTION_PREFIX_LENGTH. replace (s + 3) with (3 + s) by lia. apply fits_app; [|exact H].
  change (enc_fits 3 (put_u8 FC_DESCRIBED :: u64_enc c)). unfold u64_enc.
  destruct (Z.eqb_spec c 0); [lia|]. destruct (Z.ltb_spec 255 c); [lia|]. split; [reflexivity|].
  cbn. repeat constructor; unfold byte_ok; try lia; apply Z.mod_pos_bound; lia.
Qed.

Definition measured (t : transfer_body) : Prop :=
  body_valid t -> body_memo_ok t ->
  transfer_body_size t = zlen (payload t) + 3 * body_headers t /\ bytes_ok (payload t) /\ 0 <= body_headers t.

Lemma tb_in m : transfer_body_size (TBMessageIn m) = message_size m /\ payload (TBMessageIn m) = message_bytes m /\
  body_headers (TBMessageIn m) = message_headers m.
Proof. repeat split. Qed.

Definition nested_size (m : transfer_body) : Z :=
  let length := transfer_body_size m in let size := length + (if 255 <? length then 5 else 2) in size + SECTION_PREFIX_LENGTH.
Definition nested_ops (m : transfer_body) : list wop :=
  descriptor_enc (DUlong 117)
  ++ (let length := transfer_body_size m in
      if 255 <? length then [put_u8 FC_BINARY32; put_u32_be length] else [put_u8 FC_BINARY8; put_u8 length])
  ++ transfer_body_enc m.
Lemma nested_len l : Forall measured l -> all_prop body_valid l -> Forall body_memo_ok l ->
  zsum nested_size l = zlen (wbytes (flat_map nested_ops l)) + 3 * zsum body_headers l /\
  bytes_ok (wbytes (flat_map nested_ops l)) /\ 0 <= zsum body_headers l.
Proof.
  induction 1 as [|t l Ht _ IH]; [repeat split; [constructor|cbn; lia]|]. intros [Hv Hvs] Hm. inversion_clear Hm as [|? ? Hm1 Hm2].
  destruct (Ht Hv Hm1) as (E & B & N). destruct (IH Hvs Hm2) as (E' & B' & N'). cbn [zsum flat_map].
  rewrite wbytes_app, zlen_app. rewrite E'. clear E' IH.
  assert (X : enc_fits (zlen (payload t) + (if 255 <? transfer_body_size t then 5 else 2) + SECTION_PREFIX_LENGTH) (nested_ops t)).
  { apply prefix_fits; [lia|]. rewrite Z.add_comm. apply fits_app; [|split; [reflexivity|exact B]]. cbv zeta.
    destruct (255 <? transfer_body_size t).
    - apply (fits_cons 1 4); [apply fits_u8|apply fits_u32].
    - apply (fits_cons 1 1); apply fits_u8. }
  destruct X as [X1 X2]. split; [|split].
  - unfold nested_size, SECTION_PREFIX_LENGTH in *. rewrite X1. cbv zeta. lia.
  - apply Forall_app. split; [exact X2|exact B'].
  - lia.
Qed.

Lemma body_len b : Forall measured (mb_messages b) -> Forall bytes_ok (mb_data b) -> Forall (Forall variant_ok) (mb_sequence b) ->
  opt_prop variant_ok (mb_value b) -> all_prop body_valid (mb_messages b) -> Forall body_memo_ok (mb_messages b) ->
  body_size b = zlen (wbytes (body_enc b)) + 3 * zsum body_headers (mb_messages b) /\
  bytes_ok (wbytes (body_enc b)) /\ 0 <= zsum body_headers (mb_messages b).
Proof.
  intros HM HD HS HV HB HN. destruct (nested_len _ HM HB HN) as (E & B & N).
  assert (XD : enc_fits (zsum (fun d => bin_size d + SECTION_PREFIX_LENGTH) (mb_data b))
    (flat_map (fun d => descriptor_enc (DUlong 117) ++ bin_enc d) (mb_data b))).
  { apply fits_flat_map. eapply Forall_impl; [|exact HD]. intros d Hd. apply prefix_fits; [lia|]. apply (bin_el d Hd). }
  assert (XS : enc_fits (zsum (fun d => list_size variant_size d + SECTION_PREFIX_LENGTH) (mb_sequence b))
    (flat_map (fun d => descriptor_enc (DUlong 118) ++ list_enc variant_size variant_enc d) (mb_sequence b))).
  { apply fits_flat_map. eapply Forall_impl; [|exact HS]. intros d Hd. apply prefix_fits; [lia|]. apply (list_el d Hd). }
  assert (XV : enc_fits (opt_add (fun v => variant_size v + SECTION_PREFIX_LENGTH) (mb_value b))
    (opt_ops (fun v => descriptor_enc (DUlong 119) ++ variant_enc v) (mb_value b))).
  { apply (opt_fits variant_ok); [|exact HV]. intros v Hv. apply prefix_fits; [lia|]. apply (variant_el v Hv). }
  destruct XD as [D1 D2], XS as [S1 S2], XV as [V1 V2].
  assert (EQ : body_size b = zsum (fun d => bin_size d + SECTION_PREFIX_LENGTH) (mb_data b) +
    zsum (fun d => list_size variant_size d + SECTION_PREFIX_LENGTH) (mb_sequence b) + zsum nested_size (mb_messages b) +
    opt_add (fun v => variant_size v + SECTION_PREFIX_LENGTH) (mb_value b)).
  { unfold body_size, body_size_. change (zsum nested_size (mb_messages b)) with
     (zsum (fun m => let length := transfer_body_size m in let size := length + (if 255 <? length then 5 else 2) in size + SECTION_PREFIX_LENGTH) (mb_messages b)).
    cbv zeta. destruct (mb_value b); cbn [opt_add]; lia. }
  rewrite EQ. unfold body_enc, body_enc_.
  change (flat_map _ (mb_messages b)) with (flat_map nested_ops (mb_messages b)).
  rewrite !wbytes_app, !zlen_app. rewrite D1, S1, V1.
  split; [|split; [|exact N]].
  - lia.
  - repeat (apply Forall_app; split); assumption.
Qed.

Lemma message_len m : Forall measured (mb_messages (m_body m)) -> message_valid m -> Forall body_memo_ok (mb_messages (m_body m)) ->
  message_fresh_size m = zlen (message_bytes m) + 3 * message_headers m /\ bytes_ok (message_bytes m) /\ 0 <= message_headers m.
Proof.
  intros HM (V1 & V2 & V3 & V4 & V5 & V6 & V7 & V8 & V9 & V10) HN.
  destruct (body_len _ HM V7 V8 V9 V10 HN) as (EB & BB & NB).
  assert (X1 : enc_fits (opt_add header_size (m_header m)) (opt_ops header_enc (m_header m))).
  { apply (opt_fits (s_valid header_S)); [|exact V1]. exact header_fits. }
  assert (X4 : enc_fits (opt_add properties_size (m_properties m)) (opt_ops properties_enc (m_properties m))).
  { apply (opt_fits (s_valid properties_S)); [|exact V4]. exact properties_fits. }
  assert (XF : forall c o, 0 < c < 256 -> opt_prop (s_valid fields_S) o ->
    enc_fits (opt_add (fun x => e_size (c_E fields_C) x + SECTION_PREFIX_LENGTH) o)
             (opt_ops (fun x => descriptor_enc (DUlong c) ++ e_enc (c_E fields_C) x) o)).
  { intros c o Hc Ho. apply (opt_fits (s_valid fields_S)); [|exact Ho]. intros x Hx. apply prefix_fits; [lia|]. exact (proj1 (fields_el x Hx)). }
  pose proof (XF 113 _ ltac:(lia) V2) as X2. pose proof (XF 114 _ ltac:(lia) V3) as X3. pose proof (XF 120 _ ltac:(lia) V6) as X6.
  assert (X5 : enc_fits (opt_add (fun x => e_size (c_E string_variant_map_C) x + SECTION_PREFIX_LENGTH) (m_application_properties m))
             (opt_ops (fun x => descriptor_enc (DUlong 116) ++ e_enc (c_E string_variant_map_C) x) (m_application_properties m))).
  { apply (opt_fits entries_valid); [|exact V5]. intros x Hx. apply prefix_fits; [lia|]. exact (proj1 (entries_el x Hx)). }
  assert (XB : exists w, (if body_size (m_body m) =? 0 then descriptor_enc (DUlong 117) ++ [put_u8 FC_BINARY8; put_u8 0] else body_enc (m_body m)) = w /\
    (if body_size (m_body m) =? 0 then SECTION_PREFIX_LENGTH + 2 else body_size (m_body m)) = zlen (wbytes w) + 3 * zsum body_headers (mb_messages (m_body m)) /\
    bytes_ok (wbytes w)).
  { eexists; split; [reflexivity|]. destruct (Z.eqb_spec (body_size (m_body m)) 0) as [E0|E0]; [|now split].
    pose proof (zlen_nonneg (wbytes (body_enc (m_body m)))).
    assert (zsum body_headers (mb_messages (m_body m)) = 0) as -> by lia. split; [reflexivity|].
    cbn. repeat constructor; unfold byte_ok; lia. }
  destruct XB as (w & Ew & XB & BW).
  unfold message_bytes, message_enc, message_enc_. change (body_size_ transfer_body_size) with body_size.
  change (body_enc_ transfer_body_size transfer_body_enc) with body_enc. rewrite Ew.
  destruct X1 as [X1 Y1], X2 as [X2 Y2], X3 as [X3 Y3], X4 as [X4 Y4], X5 as [X5 Y5], X6 as [X6 Y6].
  split; [|split].
  - unfold message_fresh_size, message_fresh_size_. change (body_size_ transfer_body_size) with body_size. cbv zeta. rewrite XB.
    rewrite !wbytes_app, !zlen_app, X1, X2, X3, X4, X5, X6. unfold message_headers, message_headers_.
    destruct (m_header m); cbn [opt_add]; unfold SECTION_PREFIX_LENGTH; lia.
  - rewrite !wbytes_app. repeat (apply Forall_app; split); assumption.
  - unfold message_headers, message_headers_. destruct (m_header m); lia.
Qed.
Lemma all_measured t : measured t.
Proof.
  induction t as [b|m IH|m IH] using transfer_body_nested.
  - intros Hb _. cbn [transfer_body_size body_headers]. unfold payload. cbn [transfer_body_enc]. 
    change (wbytes [Put b]) with (b ++ []). rewrite app_nil_r. split; [lia|]. split; [exact Hb|lia].
  - intros Hv [Hm HN]. apply all_prop_Forall in HN. destruct (message_len m IH Hv HN) as (E & B & N).
    split; [|split; [exact B|exact N]].
    change (transfer_body_size (TBMessageIn m)) with (message_size m). unfold message_size, message_size_.
    change (message_fresh_size_ transfer_body_size) with message_fresh_size.
    destruct (Z.eqb_spec (m_size m) 0); cbn [negb]; [exact E|]. destruct Hm as [Hm|Hm]; [lia|]. rewrite Hm. exact E.
  - intros Hv [Hm HN]. apply all_prop_Forall in HN. destruct (message_len m IH Hv HN) as (E & B & N).
    split; [|split; [exact B|exact N]].
    change (transfer_body_size (TBMessageOut m)) with (message_size m). unfold message_size, message_size_.
    change (message_fresh_size_ transfer_body_size) with message_fresh_size.
    destruct (Z.eqb_spec (m_size m) 0); cbn [negb]; [exact E|]. destruct Hm as [Hm|Hm]; [lia|]. rewrite Hm. exact E.
Qed.
Lemma message_size_bytes m : message_valid m -> message_memo_ok m ->
  message_size m = zlen (message_bytes m) + 3 * message_headers m /\ bytes_ok (message_bytes m) /\ 0 <= message_headers m.
Proof. intros Hv [Hm HN]. apply (all_measured (TBMessageIn m) Hv). split; [exact Hm|now apply all_prop_Forall]. Qed.

(** ** Sections *)
Lemma section_type : amqp_type section_S.
Proof. constructor. Qed.
Definition sections_bytes (l : list section) : bytes := flat_map (s_bytes section_S) l.
Lemma sections_app a b : sections_bytes (a ++ b) = sections_bytes a ++ sections_bytes b.
Proof. apply flat_map_app. Qed.
Lemma sections_opt {A} (f : A -> section) o : sections_bytes (opt_list f o) = wbytes (opt_ops (fun x => section_enc (f x)) o).
Proof. destruct o; [|reflexivity]. unfold sections_bytes. cbn [opt_list flat_map opt_ops]. now rewrite app_nil_r. Qed.
Lemma sections_map {A} (f : A -> section) l : sections_bytes (map f l) = wbytes (flat_map (fun x => section_enc (f x)) l).
Proof. rewrite wbytes_flat_map. unfold sections_bytes. induction l as [|x l IH]; [reflexivity|]. cbn [map flat_map]. now rewrite IH. Qed.

Lemma zsum_pos {A} (f : A -> Z) l : Forall (fun x => 1 <= f x) l -> zlen l <= zsum f l.
Proof. induction 1; cbn [zsum]; rewrite ?zlen_cons; [easy|]. lia. Qed.
Lemma body_none b : Forall (fun t => 0 <= transfer_body_size t) (mb_messages b) -> Forall (Forall variant_ok) (mb_sequence b) ->
  opt_prop variant_ok (mb_value b) -> (body_size b = 0 <-> body_sections b = []).
Proof.
  intros HM HS HV. split.
  - intros E. unfold body_size, body_size_ in E.
    assert (P1 : zlen (mb_data b) <= zsum (fun d => bin_size d + SECTION_PREFIX_LENGTH) (mb_data b)).
    { apply zsum_pos. apply Forall_forall. intros d _. unfold bin_size, SECTION_PREFIX_LENGTH.
      pose proof (var_size_pos (zlen d) (zlen_nonneg d)). lia. }
    assert (P2 : zlen (mb_sequence b) <= zsum (fun d => list_size variant_size d + SECTION_PREFIX_LENGTH) (mb_sequence b)).
    { apply zsum_pos. eapply Forall_impl; [|exact HS]. intros d Hd. unfold SECTION_PREFIX_LENGTH.
      pose proof (proj2 (list_el d Hd)). change (e_size list_E d) with (list_size variant_size d) in *. lia. }
    assert (P3 : zlen (mb_messages b) <= zsum nested_size (mb_messages b)).
    { apply zsum_pos. eapply Forall_impl; [|exact HM]. intros t Ht. cbn beta in Ht. unfold nested_size, SECTION_PREFIX_LENGTH. cbv zeta.
      destruct (255 <? transfer_body_size t); lia. }
    pose proof (zlen_nonneg (mb_data b)). pose proof (zlen_nonneg (mb_sequence b)). pose proof (zlen_nonneg (mb_messages b)).
    change (zsum nested_size (mb_messages b)) with
      (zsum (fun m => let length := transfer_body_size m in let size := length + (if 255 <? length then 5 else 2) in size + SECTION_PREFIX_LENGTH) (mb_messages b)) in P3.
    cbv zeta in *. unfold body_sections. destruct (mb_value b) as [v|].
    { pose proof (variant_size_pos v HV). unfold SECTION_PREFIX_LENGTH in *. lia. }
    assert (Z1 : forall A (l : list A), zlen l = 0 -> l = []).
    { intros A [|x l] Hl; [reflexivity|]. rewrite zlen_cons in Hl. pose proof (zlen_nonneg l). lia. }
    rewrite (Z1 _ (mb_data b)), (Z1 _ (mb_sequence b)), (Z1 _ (mb_messages b)) by lia. reflexivity.
  - unfold body_sections, body_size, body_size_. destruct (mb_data b); [|discriminate]. destruct (mb_sequence b); [|discriminate].
    destruct (mb_value b); [discriminate|]. destruct (mb_messages b); [|discriminate]. reflexivity.
Qed.
Lemma nested_section t : transfer_body_size t = zlen (payload t) -> wbytes (nested_ops t) = s_bytes section_S (SEC_Data (payload t)).
Proof.
  intros E. change (s_bytes section_S (SEC_Data (payload t))) with (wbytes (descriptor_enc (DUlong 117) ++ bin_enc (payload t))).
  unfold nested_ops, bin_enc, var_enc. cbv zeta. rewrite E, !wbytes_app. do 2 f_equal.
  change (wbytes [Put (payload t)]) with (payload t ++ []). now rewrite app_nil_r.
Qed.
Lemma message_bytes_sections m : Forall (fun t => transfer_body_size t = zlen (payload t)) (mb_messages (m_body m)) ->
  Forall (Forall variant_ok) (mb_sequence (m_body m)) -> opt_prop variant_ok (mb_value (m_body m)) ->
  message_bytes m = sections_bytes (message_sections m).
Proof.
  intros HM HS HV. unfold message_bytes, message_enc, message_enc_, message_sections.
  change (body_size_ transfer_body_size) with body_size. change (body_enc_ transfer_body_size transfer_body_enc) with body_enc.
  rewrite !wbytes_app, !sections_app, !sections_opt.
  assert (N : body_size (m_body m) = 0 <-> body_sections (m_body m) = []).
  { apply body_none; [|assumption|assumption]. eapply Forall_impl; [|exact HM]. intros t ->. apply zlen_nonneg. }
  assert (B : wbytes (if body_size (m_body m) =? 0 then descriptor_enc (DUlong 117) ++ [put_u8 FC_BINARY8; put_u8 0] else body_enc (m_body m)) =
    sections_bytes match body_sections (m_body m) with [] => [SEC_Data []] | l => l end).
  { destruct (Z.eqb_spec (body_size (m_body m)) 0) as [E|E].
    - apply N in E. rewrite E. reflexivity.
    - replace (match body_sections (m_body m) with [] => [SEC_Data []] | l => l end) with (body_sections (m_body m))
        by (destruct (body_sections (m_body m)); [tauto|reflexivity]).
      unfold body_sections, body_enc, body_enc_. rewrite !sections_app, !sections_map, sections_opt, !wbytes_app.
      change (flat_map _ (mb_messages (m_body m))) with (flat_map nested_ops (mb_messages (m_body m))) at 1.
      do 3 f_equal. rewrite !wbytes_flat_map. clear - HM. induction HM as [|t l E _ IH]; [reflexivity|]. cbn [flat_map].
      rewrite IH. f_equal. now apply nested_section. }
  rewrite B. reflexivity.
Qed.

(** ** Decoding *)
Definition or_else {A} (a b : option A) : option A := match a with Some x => Some x | None => b end.
Definition add_sections (m : message) (l : list section) : message :=
  let n := message_of l in
  MkMessage (m_message_format m) (or_else (m_header n) (m_header m)) (or_else (m_delivery_annotations n) (m_delivery_annotations m))
    (or_else (m_message_annotations n) (m_message_annotations m)) (or_else (m_properties n) (m_properties m))
    (or_else (m_application_properties n) (m_application_properties m)) (or_else (m_footer n) (m_footer m))
    (MkBody (mb_data (m_body m) ++ mb_data (m_body n)) (mb_sequence (m_body m) ++ mb_sequence (m_body n)) (mb_messages (m_body m))
            (or_else (mb_value (m_body n)) (mb_value (m_body m)))) (m_size m).
Lemma add_sections_nil m : add_sections m [] = m.
Proof. destruct m as [f0 f1 f2 f3 f4 f5 f6 [g0 g1 g2 g3] f7]. unfold add_sections. cbn. now rewrite !app_nil_r. Qed.
Lemma add_sections_cons m s l : add_sections m (s :: l) = add_sections (message_add_section m s) l.
Proof.
  destruct m as [f0 f1 f2 f3 f4 f5 f6 [g0 g1 g2 g3] f7]. unfold add_sections.
  destruct s; cbn [message_add_section message_of m_message_format m_header m_delivery_annotations m_message_annotations m_properties
    m_application_properties m_footer m_body m_size mb_data mb_sequence mb_messages mb_value set_application_properties set_size_body
    last_some all_some or_else]; rewrite <- ?app_assoc; cbn [app];
    repeat match goal with |- context [match ?x with Some _ => _ | None => _ end] => destruct x; cbn [or_else] end; reflexivity.
Qed.
Lemma or_else_none {A} (a : option A) : or_else a None = a.
Proof. now destruct a. Qed.
Lemma add_sections_default l : add_sections message_default l = message_of l.
Proof.
  unfold add_sections, message_default, body_default, message_of.
  cbn [m_message_format m_header m_delivery_annotations m_message_annotations m_properties
    m_application_properties m_footer m_body m_size mb_data mb_sequence mb_messages mb_value app].
  rewrite !or_else_none. reflexivity.
Qed.

Lemma section_good : good section_S.
Proof. apply type_good, section_type. Qed.
Lemma reads_nonempty md p s : reads section_dec md p s -> p <> [].
Proof. intros H ->. specialize (H []). discriminate H. Qed.
Lemma message_loop_accepts md : forall secs parts m fuel, secs <> [] -> Forall2 (reads section_dec md) parts secs ->
  (length (concat parts) < fuel)%nat ->
  message_decode_loop fuel md m (concat parts) = Ok (last parts [], add_sections m secs).
Proof.
  induction secs as [|s secs IH]; intros parts m fuel NE F L; [easy|]. inversion F as [|p ? ps ? Hp Hps]; subst. clear F.
  destruct fuel as [|fuel]; [lia|]. cbn [message_decode_loop concat]. cbn [concat] in L.
  rewrite (Hp (concat ps)). cbn [bind]. rewrite add_sections_cons.
  destruct secs as [|s2 secs].
  - inversion Hps; subst. cbn [concat last]. now rewrite app_nil_r, add_sections_nil.
  - inversion Hps as [|p2 ? ps2 ? Hp2 Hps2]; subst.
    pose proof (reads_nonempty _ _ _ Hp) as N1. pose proof (reads_nonempty _ _ _ Hp2) as N2.
    rewrite app_length in L. destruct p as [|x p]; [easy|]. cbn [length] in L.
    destruct p2 as [|y p2]; [easy|].
    refine (IH ((y :: p2) :: ps2) (message_add_section m s) fuel ltac:(discriminate) Hps _).
    unfold bytes in *. lia.
Qed.
Lemma message_accepts md secs parts : secs <> [] -> Forall2 (reads section_dec md) parts secs ->
  message_decode md (concat parts) = Ok (last parts [], message_of secs).
Proof.
  intros N F. unfold message_decode. rewrite (message_loop_accepts md secs parts); [now rewrite add_sections_default|easy|easy|lia].
Qed.

Lemma message_loop_read md : forall fuel inp m r m', message_decode_loop fuel md m inp = Ok (r, m') ->
  exists secs parts, inp = concat parts /\ secs <> [] /\ Forall2 (reads section_dec md) parts secs /\ r = last parts [] /\ m' = add_sections m secs.
Proof.
  induction fuel as [|fuel IH]; [easy|]. intros inp m r m'. cbn [message_decode_loop]. intros E.
  apply bind_ok in E as [[rest s] [E1 E2]]. destruct (type_lawful section_S md section_type _ _ _ E1) as [(p & -> & Hp) _].
  destruct rest as [|x rest].
  - injection E2 as <- <-. exists [s], [p]. rewrite app_nil_r. cbn [concat last]. rewrite app_nil_r. repeat split; [easy| |].
    + constructor; [exact Hp|constructor].
    + rewrite add_sections_cons. now rewrite add_sections_nil.
  - apply IH in E2 as (secs & parts & Ei & Ns & F & -> & ->). exists (s :: secs), (p :: parts). rewrite Ei.
    repeat split; [easy| | |].
    + constructor; [exact Hp|exact F].
    + destruct parts as [|q parts]; [now inversion F; subst|]. reflexivity.
    + now rewrite add_sections_cons.
Qed.
Lemma message_read md inp r m : message_decode md inp = Ok (r, m) ->
  exists secs parts, inp = concat parts /\ secs <> [] /\ Forall2 (reads section_dec md) parts secs /\ r = last parts [] /\ m = message_of secs.
Proof.
  intros E. apply message_loop_read in E as (secs & parts & E1 & E2 & E3 & E4 & ->). exists secs, parts.
  now rewrite add_sections_default.
Qed.

(** Failure of one section is failure of the message. *)
Lemma message_loop_fails md x : (forall y, x <> Ok y) -> forall secs parts tail m fuel, Forall2 (reads section_dec md) parts secs ->
  secs = [] \/ tail <> [] -> decode section_dec md tail = x -> (length (concat parts) < fuel)%nat ->
  message_decode_loop fuel md m (concat parts ++ tail) =
    match x with Ok _ => Oof | Err e => Err e | Panic p => Panic p | Oof => Oof end.
Proof.
  intros NX. induction secs as [|s secs IH]; intros parts tail m fuel F T E L; (destruct fuel as [|fuel]; [lia|]);
    inversion F as [|p ? ps ? Hp Hps]; subst; cbn [message_decode_loop concat].
  - cbn [app]. destruct (decode section_dec md tail) as [y| | |]; [|reflexivity|reflexivity|reflexivity]. now destruct (NX y).
  - rewrite <- app_assoc, (Hp (concat ps ++ tail)). cbn [bind]. destruct T as [T|T]; [discriminate|].
    cbn [concat] in L. rewrite app_length in L. pose proof (reads_nonempty _ _ _ Hp) as N1.
    destruct p as [|y p]; [easy|]. cbn [length] in L.
    rewrite <- (IH ps tail (message_add_section m s) fuel); [|assumption|now right|reflexivity|lia].
    destruct (concat ps ++ tail) eqn:Z; [|reflexivity]. apply app_eq_nil in Z as [_ Z]. easy.
Qed.
Lemma message_fails md secs parts tail e : Forall2 (reads section_dec md) parts secs -> secs = [] \/ tail <> [] ->
  decode section_dec md tail = Err e -> message_decode md (concat parts ++ tail) = Err e.
Proof.
  intros F T E. unfold message_decode. rewrite (message_loop_fails md (Err e) ltac:(discriminate) secs); try assumption; [reflexivity|].
  rewrite app_length. lia.
Qed.
Lemma message_panics md secs parts tail p : Forall2 (reads section_dec md) parts secs -> secs = [] \/ tail <> [] ->
  decode section_dec md tail = Panic p -> message_decode md (concat parts ++ tail) = Panic p.
Proof.
  intros F T E. unfold message_decode. rewrite (message_loop_fails md (Panic p) ltac:(discriminate) secs); try assumption; [reflexivity|].
  rewrite app_length. lia.
Qed.
Lemma message_loop_total md : forall fuel inp m, (length inp < fuel)%nat -> message_decode_loop fuel md m inp <> Oof.
Proof.
  induction fuel as [|fuel IH]; [lia|]. intros inp m L. cbn [message_decode_loop].
  destruct (decode section_dec md inp) as [[rest s]| | |] eqn:E; cbn [bind]; try discriminate.
  - destruct (type_prefix section_S section_type md _ _ _ E) as (p & -> & N). destruct rest as [|x rest]; [discriminate|].
    apply IH. destruct p; [easy|]. rewrite app_length in L. cbn [length] in L. cbn [length]. lia.
  - now apply (type_total section_S section_type md) in E.
Qed.
Lemma message_total md inp : message_decode md inp <> Oof.
Proof. apply message_loop_total. lia. Qed.

(** ** Round trip *)
Lemma sections_read md l : Forall section_sendable l -> Forall2 (reads section_dec md) (map (s_bytes section_S) l) (map (s_canon section_S) l).
Proof.
  induction 1 as [|s l (H1 & H2 & H3 & H4) _ IH]; cbn [map]; constructor; [|exact IH].
  intros rest. exact (type_round_trip section_S section_type md s rest H1 H2 H3 H4).
Qed.
Lemma sections_bytes_concat l : sections_bytes l = concat (map (s_bytes section_S) l).
Proof. apply flat_map_concat_map. Qed.
Lemma sequence_not_sendable l : ~ section_sendable (SEC_AmqpSequence l).
Proof. intros (_ & H & _). exact H. Qed.
Lemma sendable_body m : Forall section_sendable (message_sections m) -> mb_sequence (m_body m) = [] /\ opt_prop variant_ok (mb_value (m_body m)).
Proof.
  intros H. unfold message_sections in H. do 5 (apply Forall_app in H as [_ H]). apply Forall_app in H as [H _].
  assert (Forall section_sendable (body_sections (m_body m))) as HB.
  { destruct (body_sections (m_body m)); [constructor|exact H]. }
  unfold body_sections in HB. apply Forall_app in HB as [_ HB]. apply Forall_app in HB as [HS HB]. apply Forall_app in HB as [HV _]. split.
  - destruct (mb_sequence (m_body m)) as [|l r]; [reflexivity|]. inversion_clear HS as [|? ? X _]. now apply sequence_not_sendable in X.
  - destruct (mb_value (m_body m)) as [v|]; [|exact I]. inversion_clear HV as [|? ? X _]. exact (proj1 X).
Qed.

Lemma last_some_app {A} (f : section -> option A) a b : last_some f (a ++ b) = or_else (last_some f b) (last_some f a).
Proof.
  induction a as [|s a IH]; cbn [app last_some]; [now rewrite or_else_none|]. rewrite IH.
  now destruct (last_some f b), (last_some f a).
Qed.
Lemma all_some_app {A} (f : section -> option A) a b : all_some f (a ++ b) = all_some f a ++ all_some f b.
Proof. induction a as [|s a IH]; cbn [app all_some]; [reflexivity|]. rewrite IH. now destruct (f s). Qed.
Lemma last_some_none {A B} (f : section -> option A) (g : B -> section) l : (forall x, f (g x) = None) -> last_some f (map g l) = None.
Proof. intros H. induction l as [|x l IH]; [reflexivity|]. cbn [map last_some]. now rewrite IH, H. Qed.
Lemma all_some_none {A B} (f : section -> option A) (g : B -> section) l : (forall x, f (g x) = None) -> all_some f (map g l) = [].
Proof. intros H. induction l as [|x l IH]; [reflexivity|]. cbn [map all_some]. now rewrite H. Qed.
Lemma all_some_data l : all_some (fun s => match s with SEC_Data x => Some x | _ => None end) (map SEC_Data l) = l.
Proof. induction l as [|x l IH]; [reflexivity|]. cbn [map all_some]. now rewrite IH. Qed.

Lemma message_of_app a b : message_of (a ++ b) = add_sections (message_of a) b.
Proof.
  unfold add_sections. unfold message_of at 1. rewrite !last_some_app, !all_some_app. reflexivity.
Qed.
Lemma add_sections_app m a b : add_sections m (a ++ b) = add_sections (add_sections m a) b.
Proof.
  revert m. induction a as [|s a IH]; intros m; [now rewrite add_sections_nil|]. cbn [app]. now rewrite !add_sections_cons, IH.
Qed.
Lemma message_of_data l : message_of (map SEC_Data l) = MkMessage None None None None None None None (MkBody l [] [] None) 0.
Proof. unfold message_of. rewrite all_some_data, all_some_none by reflexivity. now rewrite !last_some_none by reflexivity. Qed.

Lemma canon_sections m : mb_sequence (m_body m) = [] ->
  message_of (map (s_canon section_S) (message_sections m)) = received_message m.
Proof.
  intros HS. unfold message_sections. rewrite !map_app.
  assert (B : message_of (map (s_canon section_S) match body_sections (m_body m) with [] => [SEC_Data []] | l => l end) =
    MkMessage None None None None None None None (received_body (m_body m)) 0).
  { unfold body_sections, received_body. rewrite HS. cbn [map app].
    assert (D : forall l, map (s_canon section_S) (map SEC_Data l) = map SEC_Data l).
    { intros l. rewrite map_map. now apply map_ext. }
    assert (D2 : map (s_canon section_S) (map (fun t => SEC_Data (payload t)) (mb_messages (m_body m))) = map SEC_Data (map payload (mb_messages (m_body m)))).
    { rewrite !map_map. now apply map_ext. }
    destruct (mb_value (m_body m)) as [v|]; cbn [opt_list option_map app].
    - assert (E : forall k l, match map SEC_Data k ++ SEC_AmqpValue v :: l with [] => [SEC_Data []] | l => l end = map SEC_Data k ++ SEC_AmqpValue v :: l)
        by (intros [|? ?] ?; reflexivity).
      rewrite E, map_app. cbn [map]. rewrite D, D2.
      change (s_canon section_S (SEC_AmqpValue v)) with (SEC_AmqpValue (canon v)).
      change (SEC_AmqpValue (canon v) :: map SEC_Data (map payload (mb_messages (m_body m)))) with
        ([SEC_AmqpValue (canon v)] ++ map SEC_Data (map payload (mb_messages (m_body m)))).
      rewrite message_of_app, message_of_data. unfold add_sections at 1. cbv zeta. rewrite message_of_app. unfold add_sections. cbv zeta.
      rewrite message_of_data. cbn.
      now destruct (mb_data (m_body m) ++ map payload (mb_messages (m_body m))).
    - rewrite <- (map_map payload SEC_Data), <- map_app.
      destruct (mb_data (m_body m) ++ map payload (mb_messages (m_body m))) as [|x l]; [reflexivity|].
      change (map SEC_Data (x :: l)) with (SEC_Data x :: map SEC_Data l). cbv iota.
      change (SEC_Data x :: map SEC_Data l) with (map SEC_Data (x :: l)). rewrite D. apply message_of_data. }
  rewrite <- add_sections_default, !add_sections_app.
  revert B. generalize (map (s_canon section_S) match body_sections (m_body m) with [] => [SEC_Data []] | l => l end).
  intros l B.
  assert (X : forall n, m_body n = body_default -> m_size n = 0 -> add_sections n l =
    MkMessage (m_message_format n) (m_header n) (m_delivery_annotations n) (m_message_annotations n) (m_properties n)
      (m_application_properties n) (m_footer n) (received_body (m_body m)) 0).
  { intros n Hb Hs. unfold add_sections. rewrite B, Hb, Hs. unfold received_body.
    cbn [m_header m_delivery_annotations m_message_annotations m_properties m_application_properties m_footer m_body mb_data mb_sequence
      mb_messages mb_value body_default app or_else]. now rewrite or_else_none. }
  unfold received_message.
  destruct (m_header m), (m_delivery_annotations m), (m_message_annotations m), (m_properties m), (m_application_properties m), (m_footer m);
    cbn [opt_list map]; rewrite ?add_sections_cons, ?add_sections_nil, X by reflexivity; reflexivity.
Qed.
Lemma message_round_trip md m : message_sendable m -> message_decode md (message_bytes m) =
  Ok (last (map (s_bytes section_S) (message_sections m)) [], received_message m).
Proof.
  intros [HS HN]. destruct (sendable_body m HS) as [H0 HV].
  rewrite message_bytes_sections; [| |rewrite H0; constructor|exact HV].
  - rewrite sections_bytes_concat, (message_accepts md (map (s_canon section_S) (message_sections m))).
    + now rewrite canon_sections.
    + unfold message_sections. intros E. apply map_eq_nil in E. do 5 apply app_eq_nil in E as [_ E]. apply app_eq_nil in E as [E _].
      destruct (body_sections (m_body m)); discriminate E.
    + now apply sections_read.
  - eapply Forall_impl; [|exact HN]. intros t (V & M & H). destruct (all_measured t V M) as (E & _). lia.
Qed.

(** ** Memos *)
Lemma set_size_body_id (m : message) : set_size_body m (set_messages (m_body m) (mb_messages (m_body m))) (m_size m) = m.
Proof. now destruct m as [f0 f1 f2 f3 f4 f5 f6 [g0 g1 g2 g3] f7]. Qed.

(** Sizes and encodings depend on nested messages through their sizes and encodings only. *)
Lemma zsum_ext_in {A} (f g : A -> Z) l : Forall (fun x => f x = g x) l -> zsum f l = zsum g l.
Proof. induction 1; cbn [zsum]; congruence. Qed.
Lemma body_same b l : map transfer_body_size l = map transfer_body_size (mb_messages b) ->
  body_size (set_messages b l) = body_size b.
Proof.
  intros E. unfold body_size, body_size_, set_messages. cbn [mb_data mb_sequence mb_messages mb_value].
  change (zsum _ l) with (zsum nested_size l). change (zsum _ (mb_messages b)) with (zsum nested_size (mb_messages b)).
  assert (zsum nested_size l = zsum nested_size (mb_messages b)) as ->; [|reflexivity].
  set (g := fun n => n + (if 255 <? n then 5 else 2) + SECTION_PREFIX_LENGTH).
  assert (X : forall k, zsum nested_size k = zsum g (map transfer_body_size k)).
  { induction k as [|t k IH]; [reflexivity|]. cbn [zsum map]. now rewrite IH. }
  now rewrite !X, E.
Qed.
Lemma body_enc_same b l : map transfer_body_size l = map transfer_body_size (mb_messages b) ->
  map transfer_body_enc l = map transfer_body_enc (mb_messages b) -> body_enc (set_messages b l) = body_enc b.
Proof.
  intros E1 E2. unfold body_enc, body_enc_, set_messages. cbn [mb_data mb_sequence mb_messages mb_value].
  change (flat_map _ l) with (flat_map nested_ops l). change (flat_map _ (mb_messages b)) with (flat_map nested_ops (mb_messages b)).
  do 3 f_equal. revert E1 E2. generalize (mb_messages b). induction l as [|t l IH]; intros [|u k]; cbn [map flat_map]; try discriminate; [reflexivity|].
  intros [= A1 A2] [= B1 B2]. rewrite (IH k A2 B2). unfold nested_ops. now rewrite A1, B1.
Qed.
Lemma message_fresh_same m l s : map transfer_body_size l = map transfer_body_size (mb_messages (m_body m)) ->
  message_fresh_size (set_size_body m (set_messages (m_body m) l) s) = message_fresh_size m.
Proof.
  intros E. unfold message_fresh_size, message_fresh_size_, set_size_body.
  cbn [m_header m_delivery_annotations m_message_annotations m_properties m_application_properties m_footer m_body].
  change (body_size_ transfer_body_size) with body_size. now rewrite body_same.
Qed.
Lemma message_enc_same m l s : map transfer_body_size l = map transfer_body_size (mb_messages (m_body m)) ->
  map transfer_body_enc l = map transfer_body_enc (mb_messages (m_body m)) ->
  message_enc (set_size_body m (set_messages (m_body m) l) s) = message_enc m.
Proof.
  intros E1 E2. unfold message_enc, message_enc_, set_size_body.
  cbn [m_header m_delivery_annotations m_message_annotations m_properties m_application_properties m_footer m_body].
  change (body_size_ transfer_body_size) with body_size. change (body_enc_ transfer_body_size transfer_body_enc) with body_enc.
  now rewrite body_same, body_enc_same.
Qed.
Lemma message_size_zero m : m_size m = 0 -> message_size m = message_fresh_size m.
Proof. unfold message_size, message_size_. now intros ->. Qed.
Lemma message_size_set m : m_size m <> 0 -> message_size m = m_size m.
Proof. unfold message_size, message_size_. intros H. apply Z.eqb_neq in H. now rewrite H. Qed.

(** *** Asking for the size *)
Definition sized_same (t : transfer_body) : Prop :=
  transfer_body_size (transfer_body_sized t) = transfer_body_size t /\ transfer_body_enc (transfer_body_sized t) = transfer_body_enc t /\
  body_forget (transfer_body_sized t) = body_forget t /\ (body_memo_ok t -> body_memo_ok (transfer_body_sized t)).
Lemma map_same {A B} (f : A -> B) (g : A -> A) l : Forall (fun x => f (g x) = f x) l -> map f (map g l) = map f l.
Proof. induction 1; cbn [map]; congruence. Qed.
Lemma message_sized_same m : Forall sized_same (mb_messages (m_body m)) ->
  message_size (message_sized m) = message_size m /\ message_enc (message_sized m) = message_enc m /\
  message_forget (message_sized m) = message_forget m /\ (message_memo_ok m -> message_memo_ok (message_sized m)).
Proof.
  intros IH. unfold message_sized, message_sized_. destruct (Z.eqb_spec (m_size m) 0) as [E|E]; cbn [negb]; [|tauto].
  change (message_fresh_size_ transfer_body_size) with message_fresh_size.
  assert (E1 : map transfer_body_size (map transfer_body_sized (mb_messages (m_body m))) = map transfer_body_size (mb_messages (m_body m))).
  { apply map_same. eapply Forall_impl; [|exact IH]. intros t H. apply H. }
  assert (E2 : map transfer_body_enc (map transfer_body_sized (mb_messages (m_body m))) = map transfer_body_enc (mb_messages (m_body m))).
  { apply map_same. eapply Forall_impl; [|exact IH]. intros t H. apply H. }
  assert (E3 : map body_forget (map transfer_body_sized (mb_messages (m_body m))) = map body_forget (mb_messages (m_body m))).
  { apply map_same. eapply Forall_impl; [|exact IH]. intros t H. apply H. }
  split; [|split; [|split]].
  - rewrite (message_size_zero m E).
    destruct (Z.eq_dec (message_fresh_size m) 0) as [Z|Z].
    + rewrite message_size_zero by exact Z. now apply message_fresh_same.
    + rewrite message_size_set by exact Z. reflexivity.
  - now apply message_enc_same.
  - unfold message_forget, message_forget_. cbn [set_size_body set_messages m_message_format m_header m_delivery_annotations
      m_message_annotations m_properties m_application_properties m_footer m_body mb_data mb_sequence mb_messages mb_value].
    now rewrite E3.
  - intros [_ HN]. split.
    + right. cbn [m_size set_size_body]. symmetry. now apply message_fresh_same.
    + cbn [set_size_body m_body set_messages mb_messages]. clear - IH HN. induction IH as [|t l Ht _ IHl]; cbn [map]; [constructor|].
      inversion_clear HN as [|? ? H1 H2]. constructor; [now apply Ht|now apply IHl].
Qed.
Lemma memo_in m : body_memo_ok (TBMessageIn m) <-> message_memo_ok m.
Proof. cbn [body_memo_ok]. unfold message_memo_ok. now rewrite all_prop_Forall. Qed.
Lemma memo_out m : body_memo_ok (TBMessageOut m) <-> message_memo_ok m.
Proof. exact (memo_in m). Qed.
Lemma all_sized_same t : sized_same t.
Proof.
  induction t as [b|m IH|m IH] using transfer_body_nested.
  - now repeat split.
  - destruct (message_sized_same m IH) as (A & B & C & D). split; [exact A|]. split; [exact B|].
    split; [exact (f_equal TBMessageIn C)|].
    intros H. apply memo_in in H. exact (proj2 (memo_in (message_sized m)) (D H)).
  - destruct (message_sized_same m IH) as (A & B & C & D). split; [exact A|]. split; [exact B|].
    split; [exact (f_equal TBMessageOut C)|].
    intros H. apply memo_out in H. exact (proj2 (memo_out (message_sized m)) (D H)).
Qed.
Lemma message_sized_facts m : message_size (message_sized m) = message_size m /\ message_bytes (message_sized m) = message_bytes m /\
  message_forget (message_sized m) = message_forget m /\ (message_memo_ok m -> message_memo_ok (message_sized m)).
Proof.
  destruct (message_sized_same m) as (A & B & C & D); [apply Forall_forall; intros; apply all_sized_same|].
  repeat split; try assumption; [unfold message_bytes; now rewrite B|now apply D|now apply D].
Qed.

(** *** Encoding *)
Definition unchanged (g : transfer_body -> transfer_body) (t : transfer_body) : Prop :=
  transfer_body_size (g t) = transfer_body_size t /\ transfer_body_enc (g t) = transfer_body_enc t /\
  body_forget (g t) = body_forget t /\ (body_memo_ok t -> body_memo_ok (g t)).
Lemma message_mapped_same g m : Forall (unchanged g) (mb_messages (m_body m)) ->
  let m' := set_size_body m (set_messages (m_body m) (map g (mb_messages (m_body m)))) (m_size m) in
  message_size m' = message_size m /\ message_enc m' = message_enc m /\ message_forget m' = message_forget m /\ (message_memo_ok m -> message_memo_ok m').
Proof.
  intros IH m'. 
  assert (E1 : map transfer_body_size (map g (mb_messages (m_body m))) = map transfer_body_size (mb_messages (m_body m))).
  { apply map_same. eapply Forall_impl; [|exact IH]. intros t H. apply H. }
  assert (E2 : map transfer_body_enc (map g (mb_messages (m_body m))) = map transfer_body_enc (mb_messages (m_body m))).
  { apply map_same. eapply Forall_impl; [|exact IH]. intros t H. apply H. }
  assert (E3 : map body_forget (map g (mb_messages (m_body m))) = map body_forget (mb_messages (m_body m))).
  { apply map_same. eapply Forall_impl; [|exact IH]. intros t H. apply H. }
  assert (EF : message_fresh_size m' = message_fresh_size m) by now apply message_fresh_same.
  split; [|split; [|split]].
  - destruct (Z.eq_dec (m_size m) 0) as [E|E].
    + rewrite !message_size_zero by exact E. exact EF.
    + rewrite !message_size_set by exact E. reflexivity.
  - now apply message_enc_same.
  - unfold message_forget, message_forget_. cbn [m' set_size_body set_messages m_message_format m_header m_delivery_annotations
      m_message_annotations m_properties m_application_properties m_footer m_body mb_data mb_sequence mb_messages mb_value].
    now rewrite E3.
  - intros [HS HN]. split.
    + rewrite EF. exact HS.
    + cbn [m' set_size_body m_body set_messages mb_messages]. clear - IH HN. induction IH as [|t l Ht _ IHl]; cbn [map]; [constructor|].
      inversion_clear HN as [|? ? H1 H2]. constructor; [now apply Ht|now apply IHl].
Qed.
Lemma sized_unchanged t : unchanged transfer_body_sized t.
Proof. exact (all_sized_same t). Qed.
Lemma unchanged_compose g h t : unchanged g (h t) -> unchanged h t -> unchanged (fun t => g (h t)) t.
Proof. intros (A & B & C & D) (A' & B' & C' & D'). repeat split; try congruence. auto. Qed.
Lemma encoded_unchanged t : unchanged transfer_body_encoded t.
Proof.
  assert (X : forall m, Forall (unchanged transfer_body_encoded) (mb_messages (m_body m)) ->
    Forall (unchanged (fun t => transfer_body_sized (transfer_body_encoded t))) (mb_messages (m_body m))).
  { intros m. apply Forall_impl. intros u H. apply unchanged_compose; [apply sized_unchanged|exact H]. }
  induction t as [b|m IH|m IH] using transfer_body_nested.
  - now repeat split.
  - destruct (message_mapped_same _ m (X m IH)) as (A & B & C & D). split; [exact A|]. split; [exact B|].
    split; [exact (f_equal TBMessageIn C)|].
    intros H. apply memo_in in H. exact (proj2 (memo_in (message_encoded m)) (D H)).
  - destruct (message_mapped_same _ m (X m IH)) as (A & B & C & D). split; [exact A|]. split; [exact B|].
    split; [exact (f_equal TBMessageOut C)|].
    intros H. apply memo_out in H. exact (proj2 (memo_out (message_encoded m)) (D H)).
Qed.
Lemma message_encoded_facts m : message_size (message_encoded m) = message_size m /\ message_bytes (message_encoded m) = message_bytes m /\
  message_forget (message_encoded m) = message_forget m /\ (message_memo_ok m -> message_memo_ok (message_encoded m)).
Proof.
  destruct (message_mapped_same (fun t => transfer_body_sized (transfer_body_encoded t)) m) as (A & B & C & D).
  { apply Forall_forall. intros t _. apply unchanged_compose; [apply sized_unchanged|apply encoded_unchanged]. }
  split; [exact A|]. split; [|split; [exact C|exact D]]. unfold message_bytes. change (wbytes (message_enc (message_encoded m)) = wbytes (message_enc m)).
  f_equal. exact B.
Qed.
(** The order of asking for the size and encoding does not matter. *)
Lemma encoded_sized t : transfer_body_encoded (transfer_body_sized t) = transfer_body_sized (transfer_body_encoded t).
Proof.
  assert (K : forall m, Forall (fun t => transfer_body_encoded (transfer_body_sized t) = transfer_body_sized (transfer_body_encoded t)) (mb_messages (m_body m)) ->
    message_encoded (message_sized m) = message_sized (message_encoded m)).
  { intros m IH. unfold message_sized, message_sized_.
    change (m_size (message_encoded m)) with (m_size m). destruct (negb (m_size m =? 0)) eqn:E; [reflexivity|].
    change (message_fresh_size_ transfer_body_size) with message_fresh_size.
    assert (F : message_fresh_size (message_encoded m) = message_fresh_size m).
    { apply message_fresh_same. apply map_same. apply Forall_forall. intros u _.
      now apply (unchanged_compose _ _ _ (sized_unchanged _) (encoded_unchanged u)). }
    rewrite F. unfold message_encoded, message_encoded_. cbn [set_size_body m_body set_messages mb_messages m_size m_message_format m_header
      m_delivery_annotations m_message_annotations m_properties m_application_properties m_footer mb_data mb_sequence mb_value].
    unfold set_size_body, set_messages. cbn [m_body mb_messages mb_data mb_sequence mb_value m_message_format m_header
      m_delivery_annotations m_message_annotations m_properties m_application_properties m_footer]. do 2 f_equal.
    rewrite !map_map. clear - IH. induction IH as [|u l H _ IHl]; cbn [map]; [reflexivity|]. rewrite IHl. f_equal. now rewrite H. }
  induction t as [b|m IH|m IH] using transfer_body_nested; [reflexivity| |].
  - exact (f_equal TBMessageIn (K m IH)).
  - exact (f_equal TBMessageOut (K m IH)).
Qed.

(** *** Forgetting *)
Definition forget_same (t : transfer_body) : Prop := body_memo_ok t ->
  transfer_body_size (body_forget t) = transfer_body_size t /\ transfer_body_enc (body_forget t) = transfer_body_enc t.
Lemma message_forget_same m : Forall forget_same (mb_messages (m_body m)) -> message_memo_ok m ->
  message_size (message_forget m) = message_size m /\ message_enc (message_forget m) = message_enc m.
Proof.
  intros IH [HM HN].
  change (message_forget m) with (set_size_body m (set_messages (m_body m) (map body_forget (mb_messages (m_body m)))) 0).
  assert (E : Forall (fun t => transfer_body_size (body_forget t) = transfer_body_size t /\ transfer_body_enc (body_forget t) = transfer_body_enc t) (mb_messages (m_body m))).
  { clear - IH HN. induction IH as [|t l Ht _ IHl]; [constructor|]. inversion_clear HN as [|? ? H1 H2]. constructor; [now apply Ht|now apply IHl]. }
  assert (E1 : map transfer_body_size (map body_forget (mb_messages (m_body m))) = map transfer_body_size (mb_messages (m_body m))).
  { apply map_same. eapply Forall_impl; [|exact E]. intros t H. apply H. }
  assert (E2 : map transfer_body_enc (map body_forget (mb_messages (m_body m))) = map transfer_body_enc (mb_messages (m_body m))).
  { apply map_same. eapply Forall_impl; [|exact E]. intros t H. apply H. }
  split; [|now apply message_enc_same].
  rewrite message_size_zero, message_fresh_same by (exact E1 || reflexivity).
  destruct (Z.eq_dec (m_size m) 0) as [Z|Z]; [now rewrite message_size_zero|]. rewrite message_size_set by exact Z.
  destruct HM as [HM|HM]; [lia|now symmetry].
Qed.
Lemma all_forget_same t : forget_same t.
Proof.
  induction t as [b|m IH|m IH] using transfer_body_nested; intros HM.
  - now split.
  - apply memo_in in HM. exact (message_forget_same m IH HM).
  - apply memo_out in HM. exact (message_forget_same m IH HM).
Qed.
Lemma message_forget_facts m : message_memo_ok m -> message_size (message_forget m) = message_size m /\ message_bytes (message_forget m) = message_bytes m.
Proof.
  intros H. destruct (message_forget_same m) as [A B]; [apply Forall_forall; intros; apply all_forget_same|exact H|].
  split; [exact A|unfold message_bytes; now rewrite B].
Qed.
Lemma steps_memo m m' : steps m m' -> message_memo_ok m -> message_memo_ok m'.
Proof.
  induction 1; intros HM; auto.
  - apply IHsteps. now apply message_sized_facts.
  - apply IHsteps. now apply message_encoded_facts.
  - apply IHsteps. split; [now left|apply HM].
  - apply IHsteps. split; [now left|apply HM].
  - apply IHsteps. split; [now left|apply HM].
  - apply IHsteps. split; [now left|apply HM].
  - apply IHsteps. split; [now left|assumption].
  - apply IHsteps2, IHsteps1. split; [now left|apply HM].
  - apply IHsteps. unfold if_some. destruct o as [x|]; [|exact HM]. apply (H0 x eq_refl). split; [now left|apply HM].
Qed.
Lemma steps_size m m' : message_memo_ok m -> steps m m' -> message_size m' = message_size (message_forget m').
Proof. intros HM H. symmetry. apply message_forget_facts. now apply (steps_memo m). Qed.
Lemma message_of_memo l : message_memo_ok (message_of l).
Proof. split; [now left|constructor]. Qed.
Lemma set_value_stale m v : m_size m <> 0 -> message_size (set_value m v) = message_size m.
Proof. intros H. rewrite !message_size_set; [reflexivity|exact H|exact H]. Qed.

(** ** Application properties *)
Lemma hm_get_insert k v l q : hm_get_text q (hm_insert str_eqb k v l) =
  if list_eq_dec Z.eq_dec (str_bytes k) q then Some v else hm_get_text q l.
Proof.
  induction l as [|[k' v'] l IH]; cbn [hm_insert hm_get_text].
  - destruct (list_eq_dec Z.eq_dec (str_bytes k) q) as [E|E].
    + now rewrite (proj2 (str_eq_text_spec k q) E).
    + destruct (str_eq_text k q) eqn:H; [|reflexivity]. now apply str_eq_text_spec in H.
  - destruct (str_eqb k k') eqn:H.
    + apply str_eqb_spec in H. cbn [hm_get_text]. destruct (list_eq_dec Z.eq_dec (str_bytes k) q) as [E|E].
      * now rewrite (proj2 (str_eq_text_spec k' q)) by congruence.
      * destruct (str_eq_text k' q) eqn:H2; [|reflexivity]. apply str_eq_text_spec in H2. congruence.
    + cbn [hm_get_text]. rewrite IH. destruct (str_eq_text k' q) eqn:H2; [|reflexivity].
      destruct (list_eq_dec Z.eq_dec (str_bytes k) q) as [E|E]; [|reflexivity].
      apply str_eq_text_spec in H2. assert (str_eqb k k' = true) by (apply str_eqb_spec; congruence). congruence.
Qed.
Lemma in_property_set m k v q : in_app_property (in_set_app_property m k v) q =
  if list_eq_dec Z.eq_dec (str_bytes k) q then Some v else in_app_property m q.
Proof.
  unfold in_app_property, in_set_app_property, set_application_properties. cbn [m_application_properties].
  destruct (m_application_properties m) as [l|]; now rewrite hm_get_insert.
Qed.
Lemma in_properties_set sets : forall m q,
  in_app_property (fold_left (fun m kv => in_set_app_property m (fst kv) (snd kv)) sets m) q =
  match last_set q sets with Some v => Some v | None => in_app_property m q end.
Proof.
  induction sets as [|[k v] sets IH]; intros m q; cbn [fold_left last_set fst snd]; [reflexivity|]. rewrite IH, in_property_set.
  destruct (last_set q sets); [reflexivity|]. now destruct (list_eq_dec Z.eq_dec (str_bytes k) q).
Qed.
Lemma out_properties_set sets : forall m, sets <> [] ->
  out_app_properties (fold_left (fun m kv => out_set_app_property m (fst kv) (snd kv)) sets m) =
  Some (match out_app_properties m with Some l => l | None => [] end ++ sets).
Proof.
  induction sets as [|[k v] sets IH]; intros m N; [easy|]. cbn [fold_left fst snd].
  assert (E : out_app_properties (out_set_app_property m k v) = Some (match out_app_properties m with Some l => l | None => [] end ++ [(k, v)])).
  { unfold out_app_properties, out_set_app_property, set_application_properties. cbn [m_application_properties].
    now destruct (m_application_properties m). }
  destruct sets as [|kv sets]; [exact E|]. rewrite IH by easy. rewrite E. now rewrite <- app_assoc.
Qed.

(** ** Order of sections *)
Lemma last_some_swap {A} (f : section -> option A) a s t b : f s = None \/ f t = None ->
  last_some f (a ++ s :: t :: b) = last_some f (a ++ t :: s :: b).
Proof.
  intros H. rewrite !last_some_app. f_equal. cbn [last_some]. destruct (last_some f b); [reflexivity|].
  destruct H as [-> | ->]; [now destruct (f t)|now destruct (f s)].
Qed.
Lemma all_some_swap {A} (f : section -> option A) a s t b : f s = None \/ f t = None ->
  all_some f (a ++ s :: t :: b) = all_some f (a ++ t :: s :: b).
Proof. intros H. rewrite !all_some_app. f_equal. cbn [all_some]. destruct H as [-> | ->]; [now destruct (f t)|now destruct (f s)]. Qed.
Lemma message_of_swap a s t b : section_kind s <> section_kind t -> message_of (a ++ s :: t :: b) = message_of (a ++ t :: s :: b).
Proof.
  intros N. unfold message_of. f_equal; [..|f_equal].
  all: first [apply last_some_swap|apply all_some_swap|reflexivity].
  all: destruct s, t; cbn [section_kind] in N; try (exfalso; lia); auto.
Qed.
Lemma sections_readable md secs parts :
  Forall2 (fun bs sec => s_wire section_S sec bs /\ s_decodable section_S sec) parts secs -> Forall2 (reads section_dec md) parts secs.
Proof.
  induction 1 as [|bs sec parts secs [W D] _ IH]; constructor; [|exact IH].
  intros rest. exact (type_accepts section_S ty_section md sec bs rest W D).
Qed.
Lemma accepts_sections md secs parts : secs <> [] ->
  Forall2 (fun bs sec => s_wire section_S sec bs /\ s_decodable section_S sec) parts secs ->
  message_decode md (concat parts) = Ok (last parts [], message_of secs).
Proof.
  intros N H. apply message_accepts; [exact N|]. now apply sections_readable.
Qed.
Lemma sections_unknown md secs parts d label r :
  Forall2 (fun bs sec => s_wire section_S sec bs /\ s_decodable section_S sec) parts secs ->
  wire_descriptor d label -> d <> DUlong 0 -> Forall (fun a => ~ names (a_D a) d) section_alts ->
  message_decode md (concat parts ++ 0x00 :: label ++ r) = Err (EInvalidDescriptor d).
Proof.
  intros H W N U. apply message_fails with (secs := secs).
  - now apply sections_readable.
  - right. discriminate.
  - exact (union_other section_S section_alts un_section md d label r W N U).
Qed.
Lemma last_in {A} (l : list A) d : l <> [] -> In (last l d) l.
Proof.
  induction l as [|x l IH]; [easy|]. intros _. destruct l as [|y l]; [now left|]. right. now apply IH.
Qed.
Lemma message_sections_cons m : message_sections m <> [].
Proof.
  unfold message_sections. intros E. apply (f_equal (@length _)) in E. rewrite !app_length in E. cbn [length] in E.
  destruct (body_sections (m_body m)); cbn [length] in E; lia.
Qed.
Lemma message_remainder md m : message_sendable m ->
  exists secs sec m' before, message_sections m = secs ++ [sec] /\ message_decode md (message_bytes m) = Ok (s_bytes section_S sec, m') /\
    s_bytes section_S sec <> [] /\ message_bytes m = before ++ s_bytes section_S sec.
Proof.
  intros H. pose proof (message_round_trip md m H) as R. destruct (exists_last (message_sections_cons m)) as (secs & sec & E).
  rewrite E, map_app in R. cbn [map] in R. rewrite last_last in R.
  exists secs, sec, (received_message m).
  destruct (message_read md _ _ _ R) as (ss & parts & E1 & N & F & E2 & _).
  assert (NP : parts <> []) by (intros ->; inversion F; subst; easy).
  destruct (exists_last NP) as (p & x & ->).
  rewrite last_last in E2. exists (concat p). split; [exact E|]. split; [exact R|]. split.
  - destruct H as [H _]. rewrite E, Forall_forall in H. apply (type_bytes section_S ty_section).
    apply (H sec), in_or_app. right. now left.
  - rewrite E1, E2, concat_app. cbn [concat]. now rewrite app_nil_r.
Qed.
Lemma message_nested md m : message_sendable m -> mb_messages (m_body m) <> [] ->
  exists r, message_decode md (message_bytes m) = Ok (r, received_message m) /\
    mb_data (m_body (received_message m)) = mb_data (m_body m) ++ map payload (mb_messages (m_body m)) /\
    mb_messages (m_body (received_message m)) = [] /\
    forall n, In (TBMessageIn n) (mb_messages (m_body m)) \/ In (TBMessageOut n) (mb_messages (m_body m)) -> message_sendable n ->
      exists i r', nth_error (map payload (mb_messages (m_body m))) i = Some (message_bytes n) /\
        message_decode md (message_bytes n) = Ok (r', received_message n).
Proof.
  intros H N. eexists. split; [now apply message_round_trip|]. split; [|split; [reflexivity|]].
  - cbn [received_message m_body received_body mb_data]. destruct (mb_messages (m_body m)) as [|t l]; [easy|].
    cbn [map]. destruct (mb_data (m_body m)) as [|d ds]; cbn [app]; reflexivity.
  - intros n I S.
    assert (exists i, nth_error (map payload (mb_messages (m_body m))) i = Some (message_bytes n)) as [i Hi].
    { destruct I as [I|I]; apply (in_map payload) in I; apply In_nth_error in I; exact I. }
    exists i. eexists. split; [exact Hi|]. now apply message_round_trip.
Qed.

(** ** The message received equals the one sent *)
Lemma header_canon h : s_canon header_S h = h.
Proof. now destruct h as [a b [c|] d e]. Qed.
Lemma message_id_canon i : s_canon message_id_S i = i.
Proof. now destruct i. Qed.
Lemma properties_canon p : same_properties p (s_canon properties_S p).
Proof.
  unfold same_properties. destruct p as [a b c d e f g h i j k l m].
  unfold properties_S, composite_S, properties_K. cbn.
  f_equal.
  - destruct a as [a|]; [|reflexivity]. now destruct a.
  - now destruct b.
  - now destruct c.
  - now destruct d.
  - now destruct e.
  - destruct f as [f|]; [|reflexivity]. now destruct f.
  - now destruct k.
  - now destruct l.
  - now destruct m.
Qed.
Lemma entries_canon {S : tspec str} l : (forall s, str_bytes (s_canon S s) = str_bytes s) ->
  Forall (fun kv : str * variant => variant_ok (snd kv)) l -> entries_lossless l ->
  entries_equal l (map (on_both (s_canon S) canon) l).
Proof.
  intros C V L. induction V as [|[k v] l V _ IH]; cbn [map]; [constructor|]. inversion_clear L as [|? ? L1 L2].
  constructor; [|now apply IH]. cbn [on_both fst snd]. split; [now rewrite C|now apply canon_equal].
Qed.
Lemma hash_map_values {V} KO PK (PV : V -> Prop) (l : list (str * V)) : hash_map KO PK PV l -> Forall (fun kv => PV (snd kv)) l.
Proof. intros [H _]. eapply Forall_impl; [|exact H]. now intros kv [_ ?]. Qed.
Lemma fields_same l : s_valid fields_S l -> entries_lossless l -> entries_equal l (s_canon fields_S l).
Proof. intros V L. apply (@entries_canon symbol_S); [reflexivity|exact (hash_map_values _ _ _ _ V)|exact L]. Qed.
Lemma app_properties_same l : s_valid string_variant_map_S l -> entries_lossless l -> entries_equal l (s_canon string_variant_map_S l).
Proof. intros V L. apply (@entries_canon str_S); [reflexivity|exact (hash_map_values _ _ _ _ V)|exact L]. Qed.
Lemma opt_rel_map {A} (R : A -> A -> Prop) f (P : A -> Prop) o : (forall x, o = Some x -> P x -> R x (f x)) -> opt_prop P o ->
  opt_rel R o (option_map f o).
Proof. destruct o as [x|]; intros H Hp; [|exact I]. now apply H. Qed.
Lemma sendable_valid m s : message_sendable m -> In s (message_sections m) -> s_valid section_S s.
Proof. intros [H _] I. rewrite Forall_forall in H. exact (proj1 (H s I)). Qed.
Lemma message_received m : message_sendable m -> message_lossless m -> same_content m (received_message m).
Proof.
  intros H (L1 & L2 & L3 & L4 & L5).
  pose proof (fun s => sendable_valid m s H) as V.
  unfold same_content, received_message. cbn [m_header m_delivery_annotations m_message_annotations m_properties
    m_application_properties m_footer m_body received_body mb_sequence mb_value].
  split; [|split; [|split; [|split; [|split; [|split; [|split]]]]]].
  - destruct (m_header m) as [h|]; [|reflexivity]. cbn [option_map]. now rewrite header_canon.
  - apply opt_rel_map with (P := entries_lossless); [|exact L1]. intros x E. apply fields_same.
    assert (I : In (SEC_DeliveryAnnotations x) (message_sections m)).
    { unfold message_sections. rewrite E. rewrite !in_app_iff. right. left. now left. }
    exact (V _ I).
  - apply opt_rel_map with (P := entries_lossless); [|exact L2]. intros x E. apply fields_same.
    assert (I : In (SEC_MessageAnnotations x) (message_sections m)).
    { unfold message_sections. rewrite E. rewrite !in_app_iff. do 2 right. left. now left. }
    exact (V _ I).
  - destruct (m_properties m) as [p|]; [|exact I]. exact (properties_canon p).
  - apply opt_rel_map with (P := entries_lossless); [|exact L3]. intros x E. apply app_properties_same.
    assert (I : In (SEC_ApplicationProperties x) (message_sections m)).
    { unfold message_sections. rewrite E. rewrite !in_app_iff. do 4 right. left. now left. }
    exact (V _ I).
  - apply opt_rel_map with (P := entries_lossless); [|exact L4]. intros x E. apply fields_same.
    assert (I : In (SEC_Footer x) (message_sections m)).
    { unfold message_sections. rewrite E. rewrite !in_app_iff. do 6 right. now left. }
    exact (V _ I).
  - destruct (mb_sequence (m_body m)) as [|q l] eqn:E; [reflexivity|]. exfalso.
    assert (I : In (SEC_AmqpSequence q) (message_sections m)).
    { unfold message_sections, body_sections. rewrite !in_app_iff. do 5 right. left. rewrite E. cbn [map].
      destruct (map SEC_Data (mb_data (m_body m)) ++ _) eqn:E2.
      - apply app_eq_nil in E2. destruct E2 as [_ E2]. discriminate.
      - rewrite <- E2. rewrite !in_app_iff. right. left. now left. }
    destruct H as [H _]. rewrite Forall_forall in H. exact (proj1 (proj2 (H _ I))).
  - apply opt_rel_map with (P := lossless); [|exact L5]. intros x E. apply canon_equal.
    assert (I : In (SEC_AmqpValue x) (message_sections m)).
    { unfold message_sections, body_sections. rewrite !in_app_iff. do 5 right. left. rewrite E.
      destruct (map SEC_Data (mb_data (m_body m)) ++ _) eqn:E2.
      - apply app_eq_nil in E2. destruct E2 as [_ E2]. apply app_eq_nil in E2. destruct E2 as [_ E2]. discriminate.
      - rewrite <- E2. rewrite !in_app_iff. right. right. left. now left. }
    exact (V _ I).
Qed.
Lemma message_survives md m : message_sendable m -> message_lossless m ->
  exists r m', message_decode md (message_bytes m) = Ok (r, m') /\ same_content m m' /\
    (mb_messages (m_body m) = [] -> mb_data (m_body m) <> [] \/ mb_value (m_body m) <> None -> mb_data (m_body m') = mb_data (m_body m)) /\
    (mb_messages (m_body m) = [] -> mb_data (m_body m) = [] -> mb_value (m_body m) = None -> mb_data (m_body m') = [[]]).
Proof.
  intros H L. exists (last (map (s_bytes section_S) (message_sections m)) []), (received_message m).
  split; [now apply message_round_trip|]. split; [now apply message_received|].
  cbn [received_message m_body received_body mb_data]. split.
  - intros -> N. cbn [map]. rewrite app_nil_r. destruct (mb_data (m_body m)); [|reflexivity].
    destruct (mb_value (m_body m)); [reflexivity|]. now destruct N.
  - now intros -> -> ->.
Qed.

(** ** Refutations *)
Definition headed : message := set_header (with_body []) (MkHeader false 4 None false 0).
Lemma headed_valid : message_valid headed /\ message_memo_ok headed.
Proof. split; [|split; [now left|constructor]]. repeat split; repeat constructor; vm_compute; try discriminate; auto. Qed.
Lemma header_size_refuted : exists m, message_valid m /\ message_memo_ok m /\ message_size m = zlen (message_bytes m) + 3.
Proof. exists headed. split; [apply headed_valid|]. split; [apply headed_valid|]. vm_compute. reflexivity. Qed.
Lemma nested_header_refuted : exists m n, mb_messages (m_body m) = [TBMessageOut n] /\ message_valid m /\ message_memo_ok m /\
  m_header m = None /\ message_size m = zlen (message_bytes m) + 3 /\
  message_decode Debug (message_bytes m) = Err (EIncomplete (Some 20)) /\ message_decode Release (message_bytes m) = Err (EIncomplete (Some 20)).
Proof.
  exists (with_messages [TBMessageOut headed]), headed. split; [reflexivity|]. split.
  { pose proof (proj1 headed_valid) as V. repeat split; repeat constructor; exact V || apply V. }
  split. { split; [now left|]. constructor; [|constructor]. apply memo_out. apply headed_valid. }
  split; [reflexivity|]. split; [vm_compute; reflexivity|]. split; vm_compute; reflexivity.
Qed.
Lemma sequence_refuted : exists m, message_valid m /\ message_memo_ok m /\ mb_sequence (m_body m) = [[VNull]] /\
  message_decode Debug (message_bytes m) = Err (EInvalidFormatCode 0xe0) /\ message_decode Release (message_bytes m) = Err (EInvalidFormatCode 0xe0).
Proof.
  exists (set_body message_default (fun _ => MkBody [] [[VNull]] [] None)). split.
  { repeat split; repeat constructor. }
  split; [split; [now left|constructor]|]. split; [reflexivity|]. split; vm_compute; reflexivity.
Qed.
Lemma set_value_refuted : exists m v, message_memo_ok m /\ message_size (set_value (message_sized m) v) <> message_size (message_forget (set_value (message_sized m) v)) /\
  zlen (message_bytes (set_value (message_sized m) v)) <> message_size (set_value (message_sized m) v).
Proof.
  exists (with_body [1]), (VUint 300). split; [split; [now left|constructor]|]. split; vm_compute; discriminate.
Qed.
Lemma sized_differs_refuted : exists m, message_sized m <> m /\ message_forget (message_sized m) = message_forget m.
Proof. exists message_default. split; [intros E; apply (f_equal m_size) in E; vm_compute in E; discriminate|apply message_sized_facts]. Qed.
Lemma remainder_refuted : exists m r m', message_sendable m /\ message_decode Debug (message_bytes m) = Ok (r, m') /\ r = message_bytes m /\ r <> [].
Proof.
  exists (with_body [1]). eexists. eexists. split; [|split; [vm_compute; reflexivity|split; [vm_compute; reflexivity|discriminate]]].
  split; [|constructor]. apply Forall_cons; [|apply Forall_nil]. repeat split; try (vm_compute; reflexivity). repeat constructor; vm_compute; auto; discriminate.
Qed.
Lemma reply_spec m : reply_message m =
  match m_properties m with
  | None => message_default
  | Some p => MkMessage None None None None
      (Some (MkProperties None None None None None (properties_message_id p) None None None None None None None)) None None (MkBody [] [] [] None) 0
  end.
Proof. unfold reply_message, if_some. now destruct (m_properties m). Qed.
Lemma start_memo : message_memo_ok message_default /\ (forall b, message_memo_ok (with_body b)) /\
  (forall l, Forall body_memo_ok l -> message_memo_ok (with_messages l)) /\
  (forall md inp r m, message_decode md inp = Ok (r, m) -> message_memo_ok m).
Proof.
  split; [split; [now left|constructor]|]. split; [intros b; split; [now left|constructor]|].
  split; [intros l H; split; [now left|exact H]|].
  intros md inp r m H. destruct (message_read md inp r m H) as (secs & parts & _ & _ & _ & _ & ->). apply message_of_memo.
Qed.
