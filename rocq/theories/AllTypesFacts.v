(** Every type of the crate meets its specification. *)

From Coq Require Import String.
From Verif Require Import Definitions BaseFacts Utf8Spec Utf8Facts Valid Wire PrimFacts DecLaws EncLaws VariantFacts TypeSpec TypeFacts
  CompositeSpec CompositeFacts AllTypes.
From Coq Require Import ZifyBool.
Ltac Zify.zify_post_hook ::= Z.div_mod_to_equations.
Open Scope Z_scope.

Lemma all_composites_ok K : In K all_composites -> transcribed K /\ good_fields (k_fields K).
Proof.
  unfold all_composites. cbn [In].
  intros H; repeat (destruct H as [H|H]; [subst K|]); try contradiction.
  - exact (conj error_tr error_fields).
  - exact (conj received_tr received_fields).
  - exact (conj accepted_tr accepted_fields).
  - exact (conj rejected_tr rejected_fields).
  - exact (conj released_tr released_fields).
  - exact (conj modified_tr modified_fields).
  - exact (conj source_tr source_fields).
  - exact (conj target_tr target_fields).
  - exact (conj open_tr open_fields).
  - exact (conj begin_tr begin_fields).
  - exact (conj attach_tr attach_fields).
  - exact (conj flow_tr flow_fields).
  - exact (conj disposition_tr disposition_fields).
  - exact (conj detach_tr detach_fields).
  - exact (conj end_tr end_fields).
  - exact (conj close_tr close_fields).
  - exact (conj sasl_mechanisms_tr sasl_mechanisms_fields).
  - exact (conj sasl_init_tr sasl_init_fields).
  - exact (conj sasl_challenge_tr sasl_challenge_fields).
  - exact (conj sasl_response_tr sasl_response_fields).
  - exact (conj sasl_outcome_tr sasl_outcome_fields).
  - exact (conj header_tr header_fields).
  - exact (conj properties_tr properties_fields).
Qed.

(** What makes a type an element type. *)
Record good_element {T} (A : aenc T) (width : T -> Z) (S : tspec T) : Prop := MkGE {
  ge_good : good S;
  ge_lawful : aenc_lawful (s_valid S) A;
  ge_code : byte_ok (a_code A);
  ge_width : forall x, s_valid S x -> a_size A x = width x /\ 1 <= width x;
  ge_emit : forall x, s_valid S x -> s_encodable S x -> a_size A x < 2 ^ 32 -> s_wire S (s_canon S x) (a_code A :: wbytes (a_enc A x))
}.

Lemma any_al {T} (P : T -> Prop) A : aenc_lawful any A -> aenc_lawful P A.
Proof. intros H x _. now apply H. Qed.
Ltac fixed_element g l :=
  constructor; [exact g|first [exact l|apply any_al, l]|cbv; split; [discriminate|reflexivity]|intros x _; cbn; lia|].

Lemma bool_ge : good_element bool_A (fun _ => 1) bool_S.
Proof. fixed_element bool_good bool_al. intros [|] _ _ _; cbn; constructor. Qed.
Lemma u8_ge : good_element u8_A (fun _ => 1) u8_S.
Proof. fixed_element u8_good u8_al. intros x H _ _. exact (g_emits _ u8_good x H I ltac:(cbn; lia)). Qed.
Lemma u16_ge : good_element u16_A (fun _ => 2) u16_S.
Proof. fixed_element u16_good u16_al. intros x H _ _. exact (g_emits _ u16_good x H I ltac:(cbn; lia)). Qed.
Lemma u32_ge : good_element u32_A (fun _ => 4) u32_S.
Proof. fixed_element u32_good u32_al. intros x H _ _. cbn [u32_A a_enc a_code]. wb. now apply WU_32. Qed.
Lemma u64_ge : good_element u64_A (fun _ => 8) u64_S.
Proof. fixed_element u64_good u64_al. intros x H _ _. cbn [u64_A a_enc a_code]. wb. now apply WUL_64. Qed.
Lemma i8_ge : good_element i8_A (fun _ => 1) i8_S.
Proof. fixed_element i8_good i8_al. intros x H _ _. exact (g_emits _ i8_good x H I ltac:(cbn; lia)). Qed.
Lemma i16_ge : good_element i16_A (fun _ => 2) i16_S.
Proof. fixed_element i16_good i16_al. intros x H _ _. exact (g_emits _ i16_good x H I ltac:(cbn; lia)). Qed.
Lemma i32_ge : good_element i32_A (fun _ => 4) i32_S.
Proof. fixed_element i32_good i32_al. intros x H _ _. cbn [i32_A a_enc a_code]. wb. now apply WI_32. Qed.
Lemma i64_ge : good_element i64_A (fun _ => 8) i64_S.
Proof. fixed_element i64_good i64_al. intros x H _ _. cbn [i64_A a_enc a_code]. wb. now apply WL_64. Qed.
Lemma f32_ge : good_element f32_A (fun _ => 4) f32_S.
Proof. fixed_element f32_good f32_al. intros x H _ _. exact (g_emits _ f32_good x H I ltac:(cbn; lia)). Qed.
Lemma f64_ge : good_element f64_A (fun _ => 8) f64_S.
Proof. fixed_element f64_good f64_al. intros x H _ _. exact (g_emits _ f64_good x H I ltac:(cbn; lia)). Qed.
Lemma char_ge : good_element char_A (fun _ => 4) char_S.
Proof. fixed_element char_good char_al. intros x H _ _. exact (g_emits _ char_good x H I ltac:(cbn; lia)). Qed.
Lemma datetime_ge : good_element datetime_A (fun _ => 8) datetime_S.
Proof. fixed_element datetime_good datetime_al. intros x H _ _. exact (g_emits _ datetime_good x H I ltac:(cbn; lia)). Qed.
Lemma uuid_ge : good_element uuid_A (fun _ => 16) uuid_S.
Proof. fixed_element uuid_good uuid_al. intros x H _ _. exact (g_emits _ uuid_good x H I ltac:(cbn; lia)). Qed.
Lemma bin_ge : good_element bin_A (fun b => 4 + zlen b) bin_S.
Proof.
  constructor; [exact bin_good|exact bin_al|cbv; split; [discriminate|reflexivity]| |].
  - intros x _. cbn [bin_A a_size]. pose proof (zlen_nonneg x). lia.
  - intros x H _ Hs. cbn [bin_A a_enc a_code a_size] in *. split; [exact H|]. wb. rewrite ?app_nil_r. apply WV_32. lia.
Qed.
Lemma bstr_ge : good_element bstr_A (fun b => 4 + zlen b) bstr_S.
Proof.
  constructor; [exact bstr_good|exact bstr_al|cbv; split; [discriminate|reflexivity]| |].
  - intros x _. cbn [bstr_A a_size]. pose proof (zlen_nonneg x). lia.
  - intros x H _ Hs. cbn [bstr_A a_enc a_code a_size] in *. split; [exact H|]. wb. rewrite ?app_nil_r. apply WV_32. lia.
Qed.
Lemma symbol_ge : good_element symbol_A (fun s => 4 + zlen (str_bytes s)) symbol_S.
Proof.
  constructor; [exact symbol_good|exact symbol_al|cbv; split; [discriminate|reflexivity]| |].
  - intros x _. cbn [symbol_A a_size]. rewrite str_len_bytes. pose proof (zlen_nonneg (str_bytes x)). lia.
  - intros x H _ Hs. now apply symbol_array_emits.
Qed.
Lemma map_ge {K V} (KO : key K) (SK : tspec K) (SV : tspec V) : good SK -> good SV ->
  good_element (map_A (c_E (s_codec SK)) (c_E (s_codec SV)))
    (fun m => 8 + total_width (fun kv => s_size SK (fst kv) + s_size SV (snd kv)) m) (map_S KO SK SV).
Proof.
  intros GK GV.
  assert (Hboth : forall m, s_valid (map_S KO SK SV) m -> Forall (both (s_valid SK) (s_valid SV)) m).
  { intros m [H _]. eapply Forall_impl; [|exact H]. intros kv (? & _ & ?). now split. }
  assert (Hfits : forall m, Forall (both (s_valid SK) (s_valid SV)) m ->
    Forall (fun kv => enc_fits (e_size (c_E (s_codec SK)) (fst kv)) (e_enc (c_E (s_codec SK)) (fst kv)) /\
                      enc_fits (e_size (c_E (s_codec SV)) (snd kv)) (e_enc (c_E (s_codec SV)) (snd kv))) m).
  { intros m H. eapply Forall_impl; [|exact H]. intros kv [H1 H2]. split; [now apply (g_enc SK GK)|now apply (g_enc SV GV)]. }
  constructor.
  - now apply map_good.
  - intros m H. apply (map_al (s_valid SK) (s_valid SV)); [apply (g_enc SK GK)|apply (g_enc SV GV)|].
    now apply Hboth.
  - cbv; split; [discriminate|reflexivity].
  - intros m H. apply Hboth in H. pose proof (Hfits m H) as F. apply map_entries_fits in F. destruct F as [F1 F2].
    cbn [map_A a_size].
    assert (E : map_encoded_size (e_size (c_E (s_codec SK))) (e_size (c_E (s_codec SV))) m =
                total_width (fun kv => s_size SK (fst kv) + s_size SV (snd kv)) m).
    { clear. induction m as [|[k v] m IH]; [reflexivity|]. unfold map_encoded_size in *. cbn [zsum total_width].
      rewrite IH. reflexivity. }
    pose proof (zlen_nonneg (wbytes (map_entries (e_enc (c_E (s_codec SK))) (e_enc (c_E (s_codec SV))) m))). lia.
  - intros m H He Hs. apply Hboth in H. cbn [map_A a_size a_enc a_code] in *.
    pose proof (Hfits m H) as F. apply map_entries_fits in F. destruct F as [F _].
    assert (W := pairs_emits SK SV GK GV m H He ltac:(lia)).
    cbn [s_wire map_S s_canon]. wb. rewrite <- F at 1. rewrite (Z.mul_comm _ 2).
    rewrite <- (zlen_map (on_both (s_canon SK) (s_canon SV)) m). apply WM_32; [exact W|lia].
Qed.

Scheme amqp_type_mind := Minimality for amqp_type Sort Prop with element_mind := Minimality for element Sort Prop.
Combined Scheme types_mutind from amqp_type_mind, element_mind.

Lemma types_good :
  (forall T (S : tspec T), amqp_type S -> good S) /\
  (forall T A width (S : tspec T), element A width S -> good_element A width S).
Proof.
  apply types_mutind.
  - exact bool_good.
  - exact u8_good.
  - exact u16_good.
  - exact u32_good.
  - exact u64_good.
  - exact i8_good.
  - exact i16_good.
  - exact i32_good.
  - exact i64_good.
  - exact f32_good.
  - exact f64_good.
  - exact char_good.
  - exact datetime_good.
  - exact uuid_good.
  - exact bin_good.
  - exact bstr_good.
  - exact str_good.
  - exact symbol_good.
  - exact variant_good.
  - exact list_good.
  - exact vecmap_good.
  - exact role_good.
  - exact sender_settle_mode_good.
  - exact receiver_settle_mode_good.
  - exact sasl_code_good.
  - exact terminus_durability_good.
  - exact terminus_expiry_policy_good.
  - exact amqp_error_good.
  - exact connection_error_good.
  - exact session_error_good.
  - exact link_error_good.
  - exact error_condition_good.
  - exact distribution_mode_good.
  - exact message_id_good.
  - intros K HK. destruct (all_composites_ok K HK) as [HT HF]. now apply composite_good.
  - exact delivery_state_good.
  - exact outcome_good.
  - exact sasl_frame_body_good.
  - exact section_good.
  - intros T S _ G H. now apply option_good.
  - intros K V KO SK SV _ GK _ GV. now apply map_good.
  - intros T A width S _ G. apply vec_good; apply G.
  - intros T A width S _ G H1 H2. apply multiple_good; try apply G; assumption.
  - exact bool_ge.
  - exact u8_ge.
  - exact u16_ge.
  - exact u32_ge.
  - exact u64_ge.
  - exact i8_ge.
  - exact i16_ge.
  - exact i32_ge.
  - exact i64_ge.
  - exact f32_ge.
  - exact f64_ge.
  - exact char_ge.
  - exact datetime_ge.
  - exact uuid_ge.
  - exact bin_ge.
  - exact bstr_ge.
  - exact symbol_ge.
  - intros K V KO SK SV _ GK _ GV. now apply map_ge.
Qed.
Lemma type_good {T} (S : tspec T) : amqp_type S -> good S.
Proof. apply types_good. Qed.
Lemma element_good {T} A width (S : tspec T) : element A width S -> good_element A width S.
Proof. apply types_good. Qed.
