(** The definitions that specification.json gives are those of the tables. *)

From Coq Require Import String.
From Verif Require Import Io BaseFacts Codegen SpecJson Template Utf8Spec Valid Wire TypeSpec CompositeSpec AllTypes CodecSpec MessageSpec FrameSpec
  GenSpec NameFacts GenFacts.
From Coq Require Import ZifyBool.
Open Scope string_scope.
Open Scope list_scope.
Open Scope Z_scope.

Definition D0 : definitions :=
  Eval vm_compute in match parse (fun _ => false) specification with GOk D => D | _ => MkDefinitions [] [] [] [] [] end.
Lemma parsed upper : parse upper specification = GOk D0.
Proof. vm_compute. reflexivity. Qed.

Definition L (n : nat) : described := nth n (df_lists D0) (MkDescribed [] [] [] (MkDescr [] 0 0) [] false).
Definition R (n : nat) : described := nth n (df_described_restricted D0) (MkDescribed [] [] [] (MkDescr [] 0 0) [] false).
Definition E (n : nat) : enum := nth n (df_enums D0) (MkEnum [] [] [] [] false).
Definition A (n : nat) : alias := nth n (df_aliases D0) (MkAlias [] [] []).
Definition U (n : nat) : provides_enum := nth n (df_provides D0) (MkProvidesEnum [] false []).
Lemma at_list n : (n < 24)%nat -> In (L n) (df_lists D0).
Proof. exact (nth_In (df_lists D0) _). Qed.
Lemma at_restricted n : (n < 7)%nat -> In (R n) (df_described_restricted D0).
Proof. exact (nth_In (df_described_restricted D0) _). Qed.
Lemma at_enum n : (n < 10)%nat -> In (E n) (df_enums D0).
Proof. exact (nth_In (df_enums D0) _). Qed.
Lemma at_alias n : (n < 15)%nat -> In (A n) (df_aliases D0).
Proof. exact (nth_In (df_aliases D0) _). Qed.
Lemma at_union n : (n < 7)%nat -> In (U n) (df_provides D0).
Proof. exact (nth_In (df_provides D0) _). Qed.
Ltac small := unfold lt; repeat constructor.

(** ** Enumerations *)
Ltac dec_lit := cbn [decimal]; unfold digit; repeat split; try lia.
Ltac item_tac := split; [first [apply iv_symbol | apply iv_false | apply iv_true | apply iv_ubyte; [discriminate|dec_lit] | apply iv_uint; [discriminate|dec_lit]]|reflexivity].
Ltac enum_tac C := eapply ef_intro; [exact C|reflexivity|cbv [L R E A U D0 nth df_enums en_items en_ty]; repeat (apply Forall2_cons; [item_tac|]); apply Forall2_nil].
Lemma enum_0 : enum_follows (E 0) role_S (map fst role_table). Proof. enum_tac en_role. Qed.
Lemma enum_1 : enum_follows (E 1) sender_settle_mode_S (map fst sender_settle_mode_table). Proof. enum_tac en_sender_settle_mode. Qed.
Lemma enum_2 : enum_follows (E 2) receiver_settle_mode_S (map fst receiver_settle_mode_table). Proof. enum_tac en_receiver_settle_mode. Qed.
Lemma enum_3 : enum_follows (E 3) amqp_error_S (map fst (texts amqp_error_table)). Proof. enum_tac en_amqp_error. Qed.
Lemma enum_4 : enum_follows (E 4) connection_error_S (map fst (texts connection_error_table)). Proof. enum_tac en_connection_error. Qed.
Lemma enum_5 : enum_follows (E 5) session_error_S (map fst (texts session_error_table)). Proof. enum_tac en_session_error. Qed.
Lemma enum_6 : enum_follows (E 6) link_error_S (map fst (texts link_error_table)). Proof. enum_tac en_link_error. Qed.
Lemma enum_7 : enum_follows (E 7) sasl_code_S (map fst sasl_code_table). Proof. enum_tac en_sasl_code. Qed.
Lemma enum_8 : enum_follows (E 8) terminus_durability_S (map fst terminus_durability_table). Proof. enum_tac en_terminus_durability. Qed.
Lemma enum_9 : enum_follows (E 9) terminus_expiry_policy_S (map fst (texts terminus_expiry_policy_table)). Proof. enum_tac en_terminus_expiry_policy. Qed.
Definition rt_e n {T} {S : tspec T} {vs} (H : (n < 10)%nat) (F : enum_follows (E n) S vs) : rust_type D0 (en_name (E n)) S :=
  rt_enum D0 (E n) T S vs (at_enum n H) F.
Ltac le_n := first [apply le_n | apply le_S; le_n].
Ltac bound := unfold lt; le_n.

(** ** Aliases *)
Definition rt_a n {T} {S : tspec T} (H : (n < 15)%nat) (F : rust_type D0 (al_source (A n)) S) : rust_type D0 (al_name (A n)) S :=
  rt_alias D0 (A n) T S (at_alias n H) F.
Ltac rt0 := first
  [ exact (rt_u8 D0) | exact (rt_u16 D0) | exact (rt_u32 D0) | exact (rt_u64 D0) | exact (rt_bool D0) | exact (rt_bytes D0) | exact (rt_bytestr D0)
  | exact (rt_symbol D0) | exact (rt_uuid D0) | exact (rt_variant D0) | exact (rt_list D0) | exact (rt_map D0) | exact (rt_string_map D0)
  | exact (rt_fields D0) | exact (rt_filter_set D0) | exact (rt_timestamp D0) | exact (rt_symbols D0) | exact (rt_annotations D0)
  | exact (rt_message_id D0) | exact (rt_error_condition D0) | exact (rt_distribution_mode D0) ].
Ltac alias_tac n := refine (rt_a n _ _); [bound|rt0].
Lemma alias_0 : rust_type D0 (s2b "Handle") u32_S. Proof. alias_tac 0%nat. Qed.
Lemma alias_1 : rust_type D0 (s2b "Seconds") u32_S. Proof. alias_tac 1%nat. Qed.
Lemma alias_2 : rust_type D0 (s2b "Milliseconds") u32_S. Proof. alias_tac 2%nat. Qed.
Lemma alias_3 : rust_type D0 (s2b "DeliveryTag") bin_S. Proof. alias_tac 3%nat. Qed.
Lemma alias_4 : rust_type D0 (s2b "SequenceNo") u32_S. Proof. alias_tac 4%nat. Qed.
Lemma alias_5 : rust_type D0 (s2b "DeliveryNumber") u32_S. Proof. refine (rt_a 5 _ _); [bound|exact alias_4]. Qed.
Lemma alias_6 : rust_type D0 (s2b "TransferNumber") u32_S. Proof. refine (rt_a 6 _ _); [bound|exact alias_4]. Qed.
Lemma alias_7 : rust_type D0 (s2b "MessageFormat") u32_S. Proof. alias_tac 7%nat. Qed.
Lemma alias_8 : rust_type D0 (s2b "IetfLanguageTag") symbol_S. Proof. alias_tac 8%nat. Qed.
Lemma alias_9 : rust_type D0 (s2b "NodeProperties") fields_S. Proof. alias_tac 9%nat. Qed.
Lemma alias_10 : rust_type D0 (s2b "MessageIdUlong") u64_S. Proof. alias_tac 10%nat. Qed.
Lemma alias_11 : rust_type D0 (s2b "MessageIdUuid") uuid_S. Proof. alias_tac 11%nat. Qed.
Lemma alias_12 : rust_type D0 (s2b "MessageIdBinary") bin_S. Proof. alias_tac 12%nat. Qed.
Lemma alias_13 : rust_type D0 (s2b "MessageIdString") bstr_S. Proof. alias_tac 13%nat. Qed.
Lemma alias_14 : rust_type D0 (s2b "Address") bstr_S. Proof. alias_tac 14%nat. Qed.
Definition language_tags : rust_type D0 (s2b "IetfLanguageTags") symbols_S := rt_language_tags D0 alias_8.
Ltac enum_rt n F := exact (rt_e n ltac:(bound) F).
Ltac rt1 := first
  [ rt0 | exact language_tags
  | exact alias_0 | exact alias_1 | exact alias_2 | exact alias_3 | exact alias_4 | exact alias_5 | exact alias_6 | exact alias_7
  | exact alias_9 | exact alias_14
  | enum_rt 0%nat enum_0 | enum_rt 1%nat enum_1 | enum_rt 2%nat enum_2 | enum_rt 7%nat enum_7 | enum_rt 8%nat enum_8 | enum_rt 9%nat enum_9 ].

(** ** Literals *)
Definition li_e n {T} {S : tspec T} {vs} (H : (n < 10)%nat) (F : enum_follows (E n) S vs) i it v
    (I : nth_error (en_items (E n)) i = Some it) (V : nth_error vs i = Some v) : literal D0 S (en_name (E n) ++ s2b "::" ++ ei_name it) v :=
  li_enum D0 (E n) T S vs i it v (at_enum n H) F I V.
Ltac enum_lit n F i := exact (li_e n ltac:(bound) F i _ _ eq_refl eq_refl).
Ltac lit := first
  [ exact (li_false D0) | exact (li_true D0)
  | apply li_u8; [discriminate|dec_lit|lia] | apply li_u16; [discriminate|dec_lit|lia] | apply li_u32; [discriminate|dec_lit|lia]
  | enum_lit 1%nat enum_1 2%nat | enum_lit 2%nat enum_2 0%nat | enum_lit 8%nat enum_8 0%nat | enum_lit 9%nat enum_9 1%nat ].

(** ** Structs *)
Ltac ff rt := repeat first
  [ apply ff_nil
  | apply ff_opt; [reflexivity|reflexivity|rt|]
  | apply ff_def; [reflexivity|reflexivity|rt|lit|]
  | apply ff_req; [reflexivity|reflexivity|reflexivity|rt|] ].
Ltac norm_fields := match goal with |- fields_follow _ ?l ?F =>
  let l' := eval vm_compute in l in let F' := eval hnf in F in change (fields_follow D0 l' F') end.
Ltac struct rt := constructor; [reflexivity|reflexivity|reflexivity|norm_fields; ff rt].
Lemma list_0 : list_follows D0 (L 0) error_K. Proof. struct rt1. Qed.
Definition rt_l n {K} (H : (n < 24)%nat) (F : list_follows D0 (L n) K) : rust_type D0 (ds_name (L n)) (composite_S K) :=
  rt_struct D0 (L n) K (at_list n H) F.
Ltac struct_rt n F := exact (rt_l n ltac:(bound) F).
Ltac rt2 := first [rt1 | struct_rt 0%nat list_0].
Lemma list_19 : list_follows D0 (L 19) received_K. Proof. struct rt2. Qed.
Lemma list_20 : list_follows D0 (L 20) accepted_K. Proof. struct rt2. Qed.
Lemma list_21 : list_follows D0 (L 21) rejected_K. Proof. struct rt2. Qed.
Lemma list_22 : list_follows D0 (L 22) released_K. Proof. struct rt2. Qed.
Lemma list_23 : list_follows D0 (L 23) modified_K. Proof. struct rt2. Qed.

(** ** Unions *)
Ltac norm_options := match goal with |- options_follow _ ?l ?F =>
  let l' := eval vm_compute in l in let F' := eval hnf in F in change (options_follow D0 l' F') end.
Ltac opt n F := apply of_list with (l := L n); [apply at_list; bound|reflexivity|reflexivity|exact F|].
Ltac opt_r n := apply of_restricted with (l := R n); [apply at_restricted; bound|reflexivity|reflexivity|reflexivity|reflexivity|rt0|].
Lemma delivery_state_options : options_follow D0 (pe_options (U 5)) delivery_state_alts.
Proof. norm_options. opt 19%nat list_19. opt 20%nat list_20. opt 21%nat list_21. opt 22%nat list_22. opt 23%nat list_23. apply of_nil. Qed.
Lemma outcome_options : options_follow D0 (pe_options (U 6)) outcome_alts.
Proof. norm_options. opt 20%nat list_20. opt 21%nat list_21. opt 22%nat list_22. opt 23%nat list_23. apply of_nil. Qed.
Definition rt_u n {T} C {alts : list (alternative T)} (H : (n < 7)%nat) (X : pe_described (U n) = true)
    (F : options_follow D0 (pe_options (U n)) alts) : rust_type D0 (pe_name (U n)) (union_S C alts) :=
  rt_union D0 (U n) T C alts (at_union n H) X F.
Definition rt_delivery_state : rust_type D0 (s2b "DeliveryState") delivery_state_S := rt_u 5 delivery_state_C ltac:(bound) eq_refl delivery_state_options.
Definition rt_outcome : rust_type D0 (s2b "Outcome") outcome_S := rt_u 6 outcome_C ltac:(bound) eq_refl outcome_options.
Ltac rt3 := first [rt2 | exact rt_delivery_state | exact rt_outcome].
Lemma list_15 : list_follows D0 (L 15) source_K. Proof. struct rt3. Qed.
Lemma list_16 : list_follows D0 (L 16) target_K. Proof. struct rt3. Qed.
Ltac rt4 := first [rt3 | struct_rt 15%nat list_15 | struct_rt 16%nat list_16].
Lemma list_1 : list_follows D0 (L 1) open_K. Proof. struct rt4. Qed.
Lemma list_2 : list_follows D0 (L 2) begin_K. Proof. struct rt4. Qed.
Lemma list_3 : list_follows D0 (L 3) attach_K. Proof. struct rt4. Qed.
Lemma list_4 : list_follows D0 (L 4) flow_K. Proof. struct rt4. Qed.
Lemma list_6 : list_follows D0 (L 6) disposition_K. Proof. struct rt4. Qed.
Lemma list_7 : list_follows D0 (L 7) detach_K. Proof. struct rt4. Qed.
Lemma list_8 : list_follows D0 (L 8) end_K. Proof. struct rt4. Qed.
Lemma list_9 : list_follows D0 (L 9) close_K. Proof. struct rt4. Qed.
Lemma list_10 : list_follows D0 (L 10) sasl_mechanisms_K. Proof. struct rt4. Qed.
Lemma list_11 : list_follows D0 (L 11) sasl_init_K. Proof. struct rt4. Qed.
Lemma list_12 : list_follows D0 (L 12) sasl_challenge_K. Proof. struct rt4. Qed.
Lemma list_13 : list_follows D0 (L 13) sasl_response_K. Proof. struct rt4. Qed.
Lemma list_14 : list_follows D0 (L 14) sasl_outcome_K. Proof. struct rt4. Qed.
Lemma list_17 : list_follows D0 (L 17) header_K. Proof. struct rt4. Qed.
Lemma list_18 : list_follows D0 (L 18) properties_K. Proof. struct rt4. Qed.
Lemma list_5 : fields_follow D0 (ds_fields (L 5)) transfer_table.
Proof. norm_fields. ff rt4. Qed.
Lemma sasl_options : options_follow D0 (pe_options (U 2)) sasl_frame_body_alts.
Proof. norm_options. opt 10%nat list_10. opt 11%nat list_11. opt 12%nat list_12. opt 13%nat list_13. opt 14%nat list_14. apply of_nil. Qed.
Lemma section_options : options_follow D0 (pe_options (U 4)) section_alts.
Proof.
  norm_options. opt 17%nat list_17. opt_r 0%nat. opt_r 1%nat. opt_r 2%nat. opt_r 3%nat. opt_r 4%nat. opt_r 5%nat. opt_r 6%nat.
  opt 18%nat list_18. apply of_nil.
Qed.
Lemma frame_options : options_follow D0 (pe_options (U 1)) frame_alts.
Proof.
  norm_options. opt 1%nat list_1. opt 2%nat list_2. opt 3%nat list_3. opt 4%nat list_4.
  apply of_transfer with (l := L 5); [apply at_list; bound|reflexivity|reflexivity|reflexivity|reflexivity|reflexivity|exact list_5|].
  opt 6%nat list_6. opt 7%nat list_7. opt 8%nat list_8. opt 9%nat list_9. apply of_nil.
Qed.

(** ** All of them *)
Ltac at_in n := first [left; reflexivity | right; at_in n].
Lemma all_structs : Forall (struct_follows D0) (df_lists D0).
Proof.
  change (df_lists D0) with (map L (seq 0 24)). cbn [map seq].
  constructor; [left; exists error_K; split; [unfold all_composites; at_in 0|exact list_0]|].
  constructor; [left; exists open_K; split; [unfold all_composites; at_in 0|exact list_1]|].
  constructor; [left; exists begin_K; split; [unfold all_composites; at_in 0|exact list_2]|].
  constructor; [left; exists attach_K; split; [unfold all_composites; at_in 0|exact list_3]|].
  constructor; [left; exists flow_K; split; [unfold all_composites; at_in 0|exact list_4]|].
  constructor; [right; split; [reflexivity|exact list_5]|].
  constructor; [left; exists disposition_K; split; [unfold all_composites; at_in 0|exact list_6]|].
  constructor; [left; exists detach_K; split; [unfold all_composites; at_in 0|exact list_7]|].
  constructor; [left; exists end_K; split; [unfold all_composites; at_in 0|exact list_8]|].
  constructor; [left; exists close_K; split; [unfold all_composites; at_in 0|exact list_9]|].
  constructor; [left; exists sasl_mechanisms_K; split; [unfold all_composites; at_in 0|exact list_10]|].
  constructor; [left; exists sasl_init_K; split; [unfold all_composites; at_in 0|exact list_11]|].
  constructor; [left; exists sasl_challenge_K; split; [unfold all_composites; at_in 0|exact list_12]|].
  constructor; [left; exists sasl_response_K; split; [unfold all_composites; at_in 0|exact list_13]|].
  constructor; [left; exists sasl_outcome_K; split; [unfold all_composites; at_in 0|exact list_14]|].
  constructor; [left; exists source_K; split; [unfold all_composites; at_in 0|exact list_15]|].
  constructor; [left; exists target_K; split; [unfold all_composites; at_in 0|exact list_16]|].
  constructor; [left; exists header_K; split; [unfold all_composites; at_in 0|exact list_17]|].
  constructor; [left; exists properties_K; split; [unfold all_composites; at_in 0|exact list_18]|].
  constructor; [left; exists received_K; split; [unfold all_composites; at_in 0|exact list_19]|].
  constructor; [left; exists accepted_K; split; [unfold all_composites; at_in 0|exact list_20]|].
  constructor; [left; exists rejected_K; split; [unfold all_composites; at_in 0|exact list_21]|].
  constructor; [left; exists released_K; split; [unfold all_composites; at_in 0|exact list_22]|].
  constructor; [left; exists modified_K; split; [unfold all_composites; at_in 0|exact list_23]|].
  constructor.
Qed.
Lemma all_composites_from K : In K all_composites -> exists l, In l (df_lists D0) /\ list_follows D0 l K.
Proof.
  unfold all_composites. cbn [In]. intros H. repeat destruct H as [<-|H].
  - exists (L 0). split; [apply at_list; bound|exact list_0].
  - exists (L 19). split; [apply at_list; bound|exact list_19].
  - exists (L 20). split; [apply at_list; bound|exact list_20].
  - exists (L 21). split; [apply at_list; bound|exact list_21].
  - exists (L 22). split; [apply at_list; bound|exact list_22].
  - exists (L 23). split; [apply at_list; bound|exact list_23].
  - exists (L 15). split; [apply at_list; bound|exact list_15].
  - exists (L 16). split; [apply at_list; bound|exact list_16].
  - exists (L 1). split; [apply at_list; bound|exact list_1].
  - exists (L 2). split; [apply at_list; bound|exact list_2].
  - exists (L 3). split; [apply at_list; bound|exact list_3].
  - exists (L 4). split; [apply at_list; bound|exact list_4].
  - exists (L 6). split; [apply at_list; bound|exact list_6].
  - exists (L 7). split; [apply at_list; bound|exact list_7].
  - exists (L 8). split; [apply at_list; bound|exact list_8].
  - exists (L 9). split; [apply at_list; bound|exact list_9].
  - exists (L 10). split; [apply at_list; bound|exact list_10].
  - exists (L 11). split; [apply at_list; bound|exact list_11].
  - exists (L 12). split; [apply at_list; bound|exact list_12].
  - exists (L 13). split; [apply at_list; bound|exact list_13].
  - exists (L 14). split; [apply at_list; bound|exact list_14].
  - exists (L 17). split; [apply at_list; bound|exact list_17].
  - exists (L 18). split; [apply at_list; bound|exact list_18].
  - easy.
Qed.
Lemma all_enums : Forall (fun e => exists T (S : tspec T) values, enum_follows e S values) (df_enums D0).
Proof.
  change (df_enums D0) with (map E (seq 0 10)). cbn [map seq].
  constructor; [exact (ex_intro _ _ (ex_intro _ _ (ex_intro _ _ enum_0)))|].
  constructor; [exact (ex_intro _ _ (ex_intro _ _ (ex_intro _ _ enum_1)))|].
  constructor; [exact (ex_intro _ _ (ex_intro _ _ (ex_intro _ _ enum_2)))|].
  constructor; [exact (ex_intro _ _ (ex_intro _ _ (ex_intro _ _ enum_3)))|].
  constructor; [exact (ex_intro _ _ (ex_intro _ _ (ex_intro _ _ enum_4)))|].
  constructor; [exact (ex_intro _ _ (ex_intro _ _ (ex_intro _ _ enum_5)))|].
  constructor; [exact (ex_intro _ _ (ex_intro _ _ (ex_intro _ _ enum_6)))|].
  constructor; [exact (ex_intro _ _ (ex_intro _ _ (ex_intro _ _ enum_7)))|].
  constructor; [exact (ex_intro _ _ (ex_intro _ _ (ex_intro _ _ enum_8)))|].
  constructor; [exact (ex_intro _ _ (ex_intro _ _ (ex_intro _ _ enum_9)))|].
  constructor.
Qed.
Lemma enumerations_from {T B} (S : tspec T) (w : B -> bytes -> Prop) table name : enumeration S w table name ->
  exists e, In e (df_enums D0) /\ enum_follows e S (map fst table).
Proof.
  intros H. destruct H.
  - exists (E 0). split; [apply at_enum; bound|exact enum_0].
  - exists (E 1). split; [apply at_enum; bound|exact enum_1].
  - exists (E 2). split; [apply at_enum; bound|exact enum_2].
  - exists (E 7). split; [apply at_enum; bound|exact enum_7].
  - exists (E 8). split; [apply at_enum; bound|exact enum_8].
  - exists (E 9). split; [apply at_enum; bound|exact enum_9].
  - exists (E 3). split; [apply at_enum; bound|exact enum_3].
  - exists (E 4). split; [apply at_enum; bound|exact enum_4].
  - exists (E 5). split; [apply at_enum; bound|exact enum_5].
  - exists (E 6). split; [apply at_enum; bound|exact enum_6].
Qed.
Lemma all_aliases : Forall (fun a => exists T (S : tspec T), rust_type D0 (al_name a) S) (df_aliases D0).
Proof.
  change (df_aliases D0) with (map A (seq 0 15)). cbn [map seq].
  constructor; [exact (ex_intro _ _ (ex_intro _ _ alias_0))|].
  constructor; [exact (ex_intro _ _ (ex_intro _ _ alias_1))|].
  constructor; [exact (ex_intro _ _ (ex_intro _ _ alias_2))|].
  constructor; [exact (ex_intro _ _ (ex_intro _ _ alias_3))|].
  constructor; [exact (ex_intro _ _ (ex_intro _ _ alias_4))|].
  constructor; [exact (ex_intro _ _ (ex_intro _ _ alias_5))|].
  constructor; [exact (ex_intro _ _ (ex_intro _ _ alias_6))|].
  constructor; [exact (ex_intro _ _ (ex_intro _ _ alias_7))|].
  constructor; [exact (ex_intro _ _ (ex_intro _ _ alias_8))|].
  constructor; [exact (ex_intro _ _ (ex_intro _ _ alias_9))|].
  constructor; [exact (ex_intro _ _ (ex_intro _ _ alias_10))|].
  constructor; [exact (ex_intro _ _ (ex_intro _ _ alias_11))|].
  constructor; [exact (ex_intro _ _ (ex_intro _ _ alias_12))|].
  constructor; [exact (ex_intro _ _ (ex_intro _ _ alias_13))|].
  constructor; [exact (ex_intro _ _ (ex_intro _ _ alias_14))|].
  constructor.
Qed.
Lemma all_unions : Forall (union_follows D0) (df_provides D0).
Proof.
  change (df_provides D0) with (map U (seq 0 7)). cbn [map seq]. unfold union_follows.
  constructor; [now repeat right|].
  constructor; [do 4 right; left; split; [reflexivity|split; [reflexivity|exact frame_options]]|].
  constructor; [left; split; [reflexivity|split; [reflexivity|exact sasl_options]]|].
  constructor; [do 5 right; left; now split|].
  constructor; [right; left; split; [reflexivity|split; [reflexivity|exact section_options]]|].
  constructor; [do 2 right; left; split; [reflexivity|split; [reflexivity|exact delivery_state_options]]|].
  constructor; [do 3 right; left; split; [reflexivity|split; [reflexivity|exact outcome_options]]|].
  constructor.
Qed.
Lemma union_names : map pe_name (df_provides D0) =
  map s2b ["ErrorCondition"; "Frame"; "SaslFrameBody"; "MessageId"; "Section"; "DeliveryState"; "Outcome"].
Proof. reflexivity. Qed.
(** Types are named after their descriptors. *)
Lemma named_after : Forall (fun l => exists n s, de_name (ds_descriptor l) = s2b "amqp:" ++ n ++ s2b ":" ++ s /\ titled n (ds_name l))
  (df_lists D0 ++ df_described_restricted D0).
Proof.
  apply Forall_forall. intros l H.
  set (part := nth 1 (split_on 58 (de_name (ds_descriptor l))) []). set (last := nth 2 (split_on 58 (de_name (ds_descriptor l))) []).
  exists part, last. rewrite titled_camel. subst part last. revert l H. apply Forall_forall. vm_compute.
  repeat (apply Forall_cons; [split; reflexivity|]). apply Forall_nil.
Qed.
(** No two definitions have the same name. *)
Lemma names_distinct : NoDup (map al_name (df_aliases D0) ++ map en_name (df_enums D0) ++ map ds_name (df_lists D0) ++
  map ds_name (df_described_restricted D0) ++ map pe_name (df_provides D0)).
Proof.
  assert (X : forall l : list text, (fix nodup l := match l with [] => true | x :: r => negb (contains r x) && nodup r end) l = true -> NoDup l).
  { induction l as [|x r IH]; intros H; constructor; apply Bool.andb_true_iff in H as [H1 H2]; [|now apply IH].
    intros I. apply contains_in in I. now rewrite I in H1. }
  apply X. vm_compute. reflexivity.
Qed.

(** ** The generated Rust *)
Definition identifierb (t : text) : bool :=
  let letterb c := ((97 <=? c) && (c <=? 122)) || ((65 <=? c) && (c <=? 90)) in
  match t with [] => false | c :: r => letterb c && forallb (fun x => letterb x || ((48 <=? x) && (x <=? 57)) || (x =? 95)) r end.
Lemma identifierb_true t : identifierb t = true -> identifier t.
Proof.
  destruct t as [|c r]; [discriminate|]. cbn [identifierb]. intros H. apply Bool.andb_true_iff in H as [H1 H2]. exists c, r. split; [reflexivity|].
  split; [unfold letter, small_letter, capital_letter; lia|]. apply Forall_forall. intros x I. rewrite forallb_forall in H2. specialize (H2 x I).
  unfold letter, small_letter, capital_letter, digit. lia.
Qed.
Definition usableb (t : text) : bool := identifierb t && negb (contains rust_keywords t).
Lemma usableb_true t : usableb t = true -> usable t.
Proof.
  intros H. apply Bool.andb_true_iff in H as [H1 H2]. split; [now apply identifierb_true|]. intros I. apply contains_in in I. now rewrite I in H2.
Qed.
Lemma usables l : forallb usableb l = true -> Forall usable l.
Proof. intros H. apply Forall_forall. intros t I. rewrite forallb_forall in H. now apply usableb_true, H. Qed.
Fixpoint distinct {A} (eqb : A -> A -> bool) (l : list A) : bool :=
  match l with [] => true | x :: r => negb (existsb (eqb x) r) && distinct eqb r end.
Lemma distinct_true {A} (eqb : A -> A -> bool) l : (forall x, eqb x x = true) -> distinct eqb l = true -> NoDup l.
Proof.
  intros R. induction l as [|x r IH]; intros H; constructor; cbn [distinct] in H; apply Bool.andb_true_iff in H as [H1 H2]; [|now apply IH].
  intros I. rewrite (proj2 (existsb_exists _ _)) in H1; [discriminate|]. now exists x.
Qed.
Lemma distinct_texts (l : list text) : distinct text_eqb l = true -> NoDup l.
Proof. apply distinct_true. intros x. now apply bytes_eqb_eq. Qed.
Lemma distinct_numbers (l : list Z) : distinct Z.eqb l = true -> NoDup l.
Proof. apply distinct_true. apply Z.eqb_refl. Qed.
Definition plain_copies : list text := map s2b ["u8"; "u16"; "u32"; "u64"; "bool"; "Timestamp"].
Fixpoint copies (n : nat) (D : definitions) (t : text) : bool :=
  contains plain_copies t || contains (map en_name (df_enums D)) t ||
  match n with O => false | S m => existsb (fun a => text_eqb (al_name a) t && copies m D (al_source a)) (df_aliases D) end.
Lemma copies_true n D : forall t, copies n D t = true -> copyable D t.
Proof.
  assert (P : forall t, contains plain_copies t || contains (map en_name (df_enums D)) t = true -> copyable D t).
  { intros u H. apply Bool.orb_true_iff in H as [H|H]; apply contains_in, in_map_iff in H as (x & <- & I); [now apply cp_plain|now apply cp_enum]. }
  induction n as [|n IH]; intros t H; cbn [copies] in H; apply Bool.orb_true_iff in H as [H|H]; try discriminate; [now apply P|now apply P|].
  apply existsb_exists in H as (a & I & H). apply Bool.andb_true_iff in H as [H1 H2]. apply bytes_eqb_eq in H1 as <-.
  apply cp_alias; [exact I|now apply IH].
Qed.
Definition copyb : definitions -> text -> bool := copies 3.
Lemma copyb_true D t : copyb D t = true -> copyable D t.
Proof. apply copies_true. Qed.
Definition struct_accepts (D : definitions) (l : described) : bool :=
  usableb (ds_name l) && distinct text_eqb (map fi_name (ds_fields l)) && forallb usableb (map fi_name (ds_fields l)) &&
  negb (contains (map fi_name (ds_fields l)) (s2b "body")) && forallb (fun f => fi_is_ref f || copyb D (fi_ty f)) (ds_fields l).
Lemma struct_accepts_true D l : struct_accepts D l = true -> struct_accepted D l.
Proof.
  unfold struct_accepts. rewrite !Bool.andb_true_iff. intros ((((H1 & H2) & H3) & H4) & H5). split; [now apply usableb_true|].
  split; [now apply distinct_texts|]. split; [now apply usables|]. split.
  - intros _ I. apply contains_in in I. now rewrite I in H4.
  - apply Forall_forall. intros f I. rewrite forallb_forall in H5. specialize (H5 f I). apply Bool.orb_true_iff in H5 as [H5|H5]; [now left|].
    right. now apply copyb_true.
Qed.
Definition enum_accepts (e : enum) : bool :=
  usableb (en_name e) && distinct text_eqb (map ei_name (en_items e)) && distinct text_eqb (map ei_value (en_items e)) &&
  forallb usableb (map ei_name (en_items e)).
Lemma enum_accepts_true e : enum_accepts e = true -> enum_accepted e.
Proof.
  unfold enum_accepts. rewrite !Bool.andb_true_iff. intros (((H1 & H2) & H3) & H4). split; [now apply usableb_true|].
  split; [now apply distinct_texts|]. split; [now apply distinct_texts|now apply usables].
Qed.
Definition union_accepts (u : provides_enum) : bool :=
  usableb (pe_name u) && distinct text_eqb (map pi_ty (pe_options u)) && forallb usableb (map pi_ty (pe_options u)) &&
  (negb (pe_described u) || (distinct Z.eqb (map (fun i => de_code (pi_descriptor i)) (pe_options u)) &&
                             distinct text_eqb (map (fun i => de_name (pi_descriptor i)) (pe_options u)))).
Lemma union_accepts_true u : union_accepts u = true -> union_accepted u.
Proof.
  unfold union_accepts. rewrite !Bool.andb_true_iff. intros (((H1 & H2) & H3) & H4). split; [now apply usableb_true|].
  split; [now apply distinct_texts|]. split; [now apply usables|]. intros E. rewrite E in H4. cbn [negb orb] in H4.
  apply Bool.andb_true_iff in H4 as [H4 H5]. split; [now apply distinct_numbers|now apply distinct_texts].
Qed.
Lemma Forall_forallb {A} (P : A -> Prop) (f : A -> bool) l : (forall x, f x = true -> P x) -> forallb f l = true -> Forall P l.
Proof. intros H F. apply Forall_forall. intros x I. apply H. rewrite forallb_forall in F. now apply F. Qed.
Lemma functions_of upper l : Forall2 (member_name upper) l (map (snake_case upper) l).
Proof. induction l; constructor; [now apply member_snake|assumption]. Qed.
Lemma all_accepted upper D : parse upper specification = GOk D -> accepted upper D.
Proof.
  rewrite parsed. intros [= <-].
  split; [apply (Forall_forallb _ (struct_accepts D0) _ (struct_accepts_true D0)); vm_compute; reflexivity|].
  split; [apply (Forall_forallb _ enum_accepts _ enum_accepts_true); vm_compute; reflexivity|].
  split; [apply (Forall_forallb _ union_accepts _ union_accepts_true); vm_compute; reflexivity|].
  split; [apply usables; vm_compute; reflexivity|]. split; [apply usables; vm_compute; reflexivity|].
  eexists. split; [apply functions_of|]. split; [apply distinct_texts|apply usables]; vm_compute; reflexivity.
Qed.
