(** Facts about the layout of messages and about the builder calls. *)

From Coq Require Import String Sorted.
From Verif Require Import Frames BaseFacts Utf8Spec Valid Wire EncLaws TypeSpec CompositeSpec AllTypes CodecSpec CodecFacts MessageSpec MessageFacts.
Open Scope list_scope.
Open Scope Z_scope.

(** ** Layout *)
Lemma message_layout m : message_valid m -> message_memo_ok m -> Forall (fun t => body_headers t = 0) (mb_messages (m_body m)) ->
  message_bytes m = concat (map (s_bytes section_S) (message_sections m)).
Proof.
  intros V [_ M] H. rewrite <- sections_bytes_concat. apply message_bytes_sections.
  - destruct V as (_ & _ & _ & _ & _ & _ & _ & _ & _ & V). rewrite all_prop_Forall in V. rewrite Forall_forall in *.
    intros t I. destruct (all_measured t (V t I) (M t I)) as (E & _). rewrite (H t I) in E. lia.
  - apply V.
  - apply V.
Qed.
Lemma message_conforms m : message_sendable m -> exists parts, message_bytes m = concat parts /\
  Forall2 (s_wire section_S) (map (s_canon section_S) (message_sections m)) parts.
Proof.
  intros [HS HN]. destruct (sendable_body m HS) as [H0 HV].
  exists (map (s_bytes section_S) (message_sections m)). split.
  - rewrite <- sections_bytes_concat. apply message_bytes_sections; [|rewrite H0; constructor|exact HV].
    eapply Forall_impl; [|exact HN]. intros t (V & M & H). destruct (all_measured t V M) as (E & _). lia.
  - induction HS as [|s l (V & E & Z & D) _ IH]; cbn [map]; [constructor|]. constructor; [|exact IH].
    exact (type_emits section_S ty_section s V E Z).
Qed.

(** ** Order *)
Definition body_part (b : message_body) : list section := match body_sections b with [] => [SEC_Data []] | l => l end.
Lemma body_part_kinds b : Forall (fun s => body_kind (section_kind s)) (body_part b).
Proof.
  assert (H : Forall (fun s => body_kind (section_kind s)) (body_sections b)).
  { unfold body_sections, body_kind. rewrite !Forall_app. split; [|split; [|split]].
    - apply Forall_map, Forall_forall. intros; now left.
    - apply Forall_map, Forall_forall. intros; right; now left.
    - destruct (mb_value b); repeat constructor; now right; right.
    - apply Forall_map, Forall_forall. intros; now left. }
  unfold body_part. destruct (body_sections b); [|exact H]. repeat constructor.
Qed.
Lemma body_part_some b : body_part b <> [].
Proof. unfold body_part. destruct (body_sections b); discriminate. Qed.
Lemma sorted_app (l r : list Z) : StronglySorted Z.le l -> StronglySorted Z.le r -> (forall x y, In x l -> In y r -> x <= y) ->
  StronglySorted Z.le (l ++ r).
Proof.
  intros HL HR H. induction HL as [|x l HL IH HX]; [exact HR|]. cbn [app]. constructor.
  - apply IH. intros y z Hy Hz. apply H; [now right|exact Hz].
  - apply Forall_app. split; [exact HX|]. apply Forall_forall. intros z Hz. apply H; [now left|exact Hz].
Qed.
Lemma sorted_const {A} (f : A -> Z) k l : (forall x, f x = k) -> StronglySorted Z.le (map f l).
Proof.
  intros E. induction l as [|x l IH]; cbn [map]; constructor; [exact IH|]. apply Forall_map, Forall_forall. intros y _. rewrite !E. lia.
Qed.
Lemma in_opt {A B} (f : A -> B) o x : In x (opt_list f o) -> exists a, x = f a.
Proof. destruct o as [a|]; cbn [opt_list In]; [|easy]. intros [<-|[]]. now exists a. Qed.
Lemma opt_sorted {A} (f : A -> section) o : StronglySorted Z.le (map section_kind (opt_list f o)).
Proof. destruct o; repeat constructor. Qed.
Ltac kinds := repeat match goal with
  | H : In _ (map _ _) |- _ => apply in_map_iff in H as (? & <- & H)
  | H : In _ (_ ++ _) |- _ => apply in_app_iff in H as [H|H]
  | H : In _ (opt_list _ _) |- _ => apply in_opt in H as (? & ->)
  end.
Lemma body_sorted b : mb_messages b = [] -> StronglySorted Z.le (map section_kind (body_part b)).
Proof.
  intros E. assert (H : StronglySorted Z.le (map section_kind (body_sections b))).
  { unfold body_sections. rewrite E. cbn [map]. rewrite app_nil_r, !map_app, !map_map.
    apply sorted_app; [now apply sorted_const with (k := 0x75)| |].
    - apply sorted_app; [now apply sorted_const with (k := 0x76)|apply opt_sorted|].
      intros x y Hx Hy. kinds. cbn. lia.
    - intros x y Hx Hy. kinds; cbn; lia. }
  unfold body_part. destruct (body_sections b); [repeat constructor|exact H].
Qed.
Lemma sections_sorted m : mb_messages (m_body m) = [] -> StronglySorted Z.le (map section_kind (message_sections m)).
Proof.
  intros E. unfold message_sections. change (match body_sections (m_body m) with [] => _ | l => l end) with (body_part (m_body m)).
  pose proof (body_part_kinds (m_body m)) as K. rewrite Forall_forall in K. unfold body_kind in K. rewrite !map_app.
  repeat (apply sorted_app; [first [apply opt_sorted|now apply body_sorted]| |]).
  - apply opt_sorted.
  - intros x y Hx Hy. kinds. specialize (K _ Hx). cbn. lia.
  - intros x y Hx Hy. kinds; [specialize (K _ Hy)|]; cbn; lia.
  - intros x y Hx Hy. kinds; try specialize (K _ Hy); cbn in *; lia.
  - intros x y Hx Hy. kinds; try specialize (K _ Hy); cbn in *; lia.
  - intros x y Hx Hy. kinds; try specialize (K _ Hy); cbn in *; lia.
  - intros x y Hx Hy. kinds; try specialize (K _ Hy); cbn in *; lia.
Qed.
Lemma filter_none {A} (f : A -> bool) l : Forall (fun x => f x = false) l -> filter f l = [].
Proof. induction 1 as [|x l H _ IH]; cbn [filter]; [reflexivity|now rewrite H]. Qed.
Lemma filter_all {A} (f : A -> bool) l : Forall (fun x => f x = true) l -> filter f l = l.
Proof. induction 1 as [|x l H _ IH]; cbn [filter]; [reflexivity|]. now rewrite H, IH. Qed.
Lemma body_part_of k b : ~ body_kind k -> filter (fun s => section_kind s =? k) (body_part b) = [].
Proof.
  intros N. apply filter_none. eapply Forall_impl; [|apply body_part_kinds]. intros s H. apply Z.eqb_neq. intros <-. contradiction.
Qed.
Lemma at_most_once m k : ~ body_kind k -> zlen (sections_of k m) <= 1.
Proof.
  intros N. unfold sections_of, message_sections. change (match body_sections (m_body m) with [] => _ | l => l end) with (body_part (m_body m)).
  rewrite !filter_app, (body_part_of k _ N). cbn [app].
  assert (O : forall A (f : A -> section) (o : option A) c, (forall x, section_kind (f x) = c) ->
    zlen (filter (fun s => section_kind s =? k) (opt_list f o)) = if c =? k then match o with Some _ => 1 | None => 0 end else 0).
  { intros A f o c E. destruct o as [a|]; cbn [opt_list filter]; [|now destruct (c =? k)]. rewrite E. now destruct (c =? k). }
  rewrite !zlen_app, (O _ SEC_Header _ 0x70), (O _ SEC_DeliveryAnnotations _ 0x71), (O _ SEC_MessageAnnotations _ 0x72), (O _ SEC_Properties _ 0x73),
    (O _ SEC_ApplicationProperties _ 0x74), (O _ SEC_Footer _ 0x78) by reflexivity.
  repeat match goal with |- context [?c =? k] => destruct (Z.eqb_spec c k) end; try lia.
  all: repeat match goal with |- context [match ?o with Some _ => _ | None => _ end] => destruct o end; lia.
Qed.
Lemma always_body m : exists s, In s (message_sections m) /\ body_kind (section_kind s).
Proof.
  destruct (body_part (m_body m)) as [|s l] eqn:E; [now apply body_part_some in E|]. exists s.
  pose proof (body_part_kinds (m_body m)) as K. rewrite E in K. inversion_clear K as [|? ? H _]. split; [|exact H].
  unfold message_sections. change (match body_sections (m_body m) with [] => _ | l => l end) with (body_part (m_body m)).
  rewrite E. do 5 (apply in_app_iff; right). now left.
Qed.

(** ** Builders *)
Lemma message_sections_eq m : message_sections m =
  opt_list SEC_Header (m_header m) ++ opt_list SEC_DeliveryAnnotations (m_delivery_annotations m)
  ++ opt_list SEC_MessageAnnotations (m_message_annotations m) ++ opt_list SEC_Properties (m_properties m)
  ++ opt_list SEC_ApplicationProperties (m_application_properties m) ++ body_part (m_body m) ++ opt_list SEC_Footer (m_footer m).
Proof. reflexivity. Qed.
Ltac open_sections := unfold sections_of, sections_except; rewrite !message_sections_eq;
  cbn [set_header set_properties set_application_properties set_size_body m_message_format m_header m_delivery_annotations m_message_annotations m_properties
    m_application_properties m_footer m_body].
Lemma opt_of {A} (f : A -> section) o c k : (forall x, section_kind (f x) = c) -> c <> k -> filter (fun s => section_kind s =? k) (opt_list f o) = [].
Proof. intros E N. apply filter_none. destruct o; repeat constructor. rewrite E. now apply Z.eqb_neq. Qed.
Lemma opt_except {A} (f : A -> section) o c : (forall x, section_kind (f x) = c) -> filter (fun s => negb (section_kind s =? c)) (opt_list f o) = [].
Proof. intros E. apply filter_none. destruct o; repeat constructor. now rewrite E, Z.eqb_refl. Qed.
Lemma set_header_only m h : sections_of 0x70 (set_header m h) = [SEC_Header h] /\ only_changed 0x70 m (set_header m h).
Proof.
  split; [|split; [|split; reflexivity]].
  - open_sections. rewrite !filter_app, body_part_of by (unfold body_kind; lia).
    now rewrite (opt_of SEC_DeliveryAnnotations _ 0x71), (opt_of SEC_MessageAnnotations _ 0x72), (opt_of SEC_Properties _ 0x73),
      (opt_of SEC_ApplicationProperties _ 0x74), (opt_of SEC_Footer _ 0x78) by easy.
  - open_sections. rewrite !filter_app. now rewrite !(opt_except SEC_Header _ 0x70) by easy.
Qed.
Lemma set_properties_only m f : sections_of 0x73 (set_properties m f) =
    [SEC_Properties (f match m_properties m with Some p => p | None => MkProperties None None None None None None None None None None None None None end)] /\
  only_changed 0x73 m (set_properties m f).
Proof.
  split; [|split; [|split; reflexivity]].
  - open_sections. rewrite !filter_app, body_part_of by (unfold body_kind; lia).
    rewrite (opt_of SEC_Header _ 0x70), (opt_of SEC_DeliveryAnnotations _ 0x71), (opt_of SEC_MessageAnnotations _ 0x72),
      (opt_of SEC_ApplicationProperties _ 0x74), (opt_of SEC_Footer _ 0x78) by easy. now destruct (m_properties m).
  - open_sections. rewrite !filter_app. now rewrite !(opt_except SEC_Properties _ 0x73) by easy.
Qed.
Lemma set_app_only m p s : only_changed 0x74 m (set_application_properties m p s).
Proof.
  split; [|split; reflexivity]. open_sections. rewrite !filter_app. now rewrite !(opt_except SEC_ApplicationProperties _ 0x74) by easy.
Qed.
Lemma in_app_only m k v : only_changed 0x74 m (in_set_app_property m k v).
Proof. apply set_app_only. Qed.
Lemma out_app_only m k v : only_changed 0x74 m (out_set_app_property m k v).
Proof. apply set_app_only. Qed.
Lemma body_part_except b : filter (fun s => negb ((0x75 <=? section_kind s) && (section_kind s <=? 0x77))) (body_part b) = [].
Proof.
  apply filter_none. eapply Forall_impl; [|apply body_part_kinds]. intros s [->|[->| ->]]; reflexivity.
Qed.
Lemma set_size_body_only m b s : only_body_changed m (set_size_body m b s).
Proof. split; [|reflexivity]. open_sections. now rewrite !filter_app, !body_part_except. Qed.
Lemma set_body_only m f : m_body (set_body m f) = f (m_body m) /\ only_body_changed m (set_body m f).
Proof. split; [reflexivity|apply set_size_body_only]. Qed.
Lemma set_value_only m v : message_value (set_value m v) = Some v /\ sections_of 0x77 (set_value m v) = [SEC_AmqpValue v] /\
  mb_data (m_body (set_value m v)) = mb_data (m_body m) /\ mb_sequence (m_body (set_value m v)) = mb_sequence (m_body m) /\
  mb_messages (m_body (set_value m v)) = mb_messages (m_body m) /\ only_body_changed m (set_value m v).
Proof.
  split; [reflexivity|]. split; [|do 3 (split; [reflexivity|]); apply set_size_body_only].
  open_sections. rewrite !filter_app. cbn [set_value set_size_body m_header m_delivery_annotations m_message_annotations m_properties
    m_application_properties m_footer m_body].
  rewrite (opt_of SEC_Header _ 0x70), (opt_of SEC_DeliveryAnnotations _ 0x71), (opt_of SEC_MessageAnnotations _ 0x72), (opt_of SEC_Properties _ 0x73),
      (opt_of SEC_ApplicationProperties _ 0x74), (opt_of SEC_Footer _ 0x78) by easy. cbn [app]. rewrite app_nil_r.
  assert (E : body_part (MkBody (mb_data (m_body m)) (mb_sequence (m_body m)) (mb_messages (m_body m)) (Some v)) =
    body_sections (MkBody (mb_data (m_body m)) (mb_sequence (m_body m)) (mb_messages (m_body m)) (Some v))).
  { unfold body_part. destruct (body_sections _) eqn:E; [|reflexivity]. exfalso. unfold body_sections in E. cbn [mb_data mb_sequence mb_messages mb_value opt_list] in E.
    apply app_eq_nil in E as [_ E]. now apply app_eq_nil in E as [_ E]. }
  rewrite E. unfold body_sections. cbn [mb_data mb_sequence mb_messages mb_value opt_list]. rewrite !filter_app.
  rewrite (filter_none _ (map SEC_Data _)), (filter_none _ (map SEC_AmqpSequence _)), (filter_none _ (map _ (mb_messages (m_body m)))); [reflexivity| | |];
    apply Forall_map, Forall_forall; reflexivity.
Qed.
Lemma set_data_only b d : body_first_data (body_set_data b d) = Some d /\ mb_data (body_set_data b d) = [d] /\
  mb_sequence (body_set_data b d) = mb_sequence b /\ mb_messages (body_set_data b d) = mb_messages b /\ mb_value (body_set_data b d) = mb_value b.
Proof. now repeat split. Qed.
Lemma with_body_sections b : message_sections (with_body b) = [SEC_Data b] /\ m_message_format (with_body b) = None /\
  body_first_data (m_body (with_body b)) = Some b.
Proof. now repeat split. Qed.
Lemma with_messages_sections l : l <> [] -> message_sections (with_messages l) = map (fun t => SEC_Data (payload t)) l /\
  m_message_format (with_messages l) = None /\ mb_messages (m_body (with_messages l)) = l.
Proof.
  intros N. split; [|split; reflexivity]. open_sections. cbn [with_messages m_header m_delivery_annotations m_message_annotations m_properties
    m_application_properties m_footer m_body opt_list app]. rewrite app_nil_r. unfold body_part, body_sections.
  cbn [mb_data mb_sequence mb_messages mb_value opt_list map app]. now destruct l.
Qed.
Lemma data_first b d : body_first_data b = Some d <-> exists r, mb_data b = d :: r.
Proof.
  unfold body_first_data. destruct (mb_data b) as [|x r]; split.
  - discriminate.
  - now intros [r E].
  - intros [= ->]. now exists r.
  - intros [r' [= -> _]]. reflexivity.
Qed.
Lemma encode_then_edit_refuted : exists m v r r' m1 m2, message_memo_ok m /\ message_bytes (message_encoded m) = message_bytes m /\
  message_decode Debug (message_bytes (set_body m (edit_nested v))) = Ok (r, m1) /\ message_value m1 = None /\
  message_decode Debug (message_bytes (set_body (message_encoded m) (edit_nested v))) = Ok (r', m2) /\ message_value m2 = Some v.
Proof.
  exists (with_messages [TBMessageOut (with_body [1])]), (VUint 300). do 4 eexists.
  split; [split; [now left|repeat constructor]|]. split; [vm_compute; reflexivity|].
  split; [vm_compute; reflexivity|]. split; [vm_compute; reflexivity|]. split; vm_compute; reflexivity.
Qed.
Lemma transfer_body_carries b m : payload (TBData b) = b /\ transfer_body_size (TBData b) = zlen b /\ transfer_body_message_format (TBData b) = None /\
  payload (TBMessageIn m) = message_bytes m /\ payload (TBMessageOut m) = message_bytes m /\
  transfer_body_size (TBMessageIn m) = message_size m /\ transfer_body_size (TBMessageOut m) = message_size m /\
  transfer_body_message_format (TBMessageIn m) = m_message_format m /\ transfer_body_message_format (TBMessageOut m) = m_message_format m.
Proof. repeat split. unfold payload. cbn [transfer_body_enc wbytes flat_map wop_bytes]. apply app_nil_r. Qed.
Lemma update_applies m f T (x : T) g : update m f = f (set_size m 0) /\ if_some m (Some x) g = g (set_size m 0) x /\ if_some m (@None T) g = m /\
  message_sections (set_size m 0) = message_sections m /\ m_message_format (set_size m 0) = m_message_format m /\ m_size (set_size m 0) = 0.
Proof. repeat split. Qed.
