(** Which decoders can panic, and on what. *)

From Coq Require Import String.
From Verif Require Import Definitions BaseFacts Utf8Spec Valid Wire PrimFacts DecLaws EncLaws VariantFacts TypeSpec TypeFacts CompositeSpec
  CompositeFacts AllTypes AllTypesFacts CodecSpec MapFacts ValueFacts.
From Coq Require Import ZifyBool.
Ltac Zify.zify_post_hook ::= Z.div_mod_to_equations.
Open Scope Z_scope.

(** [may Q md x]: if [x] is a panic, it is one of those in [Q]. *)
Definition may (Q : mode -> panic -> Prop) (md : mode) {A} (x : res A) : Prop := forall p, x = Panic p -> Q md p.
Definition panics {T} (Q : mode -> panic -> Prop) (d : dec T) : Prop := forall md inp fmt, may Q md (d md inp fmt).

Lemma may_ok Q md {A} (x : A) : may Q md (Ok x). Proof. discriminate. Qed.
Lemma may_err Q md {A} e : may Q md (@Err A e). Proof. discriminate. Qed.
Lemma may_bind Q md {A B} (x : res A) (f : A -> res B) : may Q md x -> (forall a, may Q md (f a)) -> may Q md (bind x f).
Proof. intros H1 H2 p E. destruct x as [a|e|q|]; cbn [bind] in E; try discriminate; [now apply (H2 a)|]. injection E as <-. now apply H1. Qed.
Lemma may_map_res Q md {A B} (f : A -> B) (x : res (bytes * A)) : may Q md x -> may Q md (map_res f x).
Proof. intros H p E. destruct x as [[r a]|e|q|]; cbn in E; try discriminate. injection E as <-. now apply H. Qed.
Lemma may_iter Q md {S} n (f : S -> res S) s : (forall s, may Q md (f s)) -> may Q md (iter_res n f s).
Proof. intros H. revert s. induction n as [|n IH]; intros s; cbn [iter_res]; [apply may_ok|]. apply may_bind; auto. Qed.
Lemma may_loop Q md {S} n (f : S -> res S) s : (forall s, may Q md (f s)) -> may Q md (loop_n n f s).
Proof. intros H. rewrite loop_n_iter. now apply may_iter. Qed.
Lemma may_check_len Q md inp n : may Q md (check_len inp n).
Proof. unfold check_len. destruct (_ <? _); discriminate. Qed.
Lemma may_validate Q md fmt c : may Q md (validate_code fmt c).
Proof. unfold validate_code. destruct (_ =? _); discriminate. Qed.
Lemma may_read_u8 Q md inp : may Q md (read_u8 inp).
Proof. destruct inp; [discriminate|rewrite read_u8_cons; discriminate]. Qed.
Lemma may_from_utf8 Q md b : may Q md (from_utf8 b).
Proof. unfold from_utf8. destruct (utf8_valid b); discriminate. Qed.
#[local] Hint Resolve may_ok may_err may_check_len may_validate may_read_u8 may_from_utf8 : may.
Ltac may_step :=
  match goal with
  | |- may _ _ (bind _ _) => apply may_bind; [|intros ?]
  | |- may _ _ (map_res _ _) => apply may_map_res
  | |- may _ _ (if ?b then _ else _) => destruct b
  | |- may _ _ (let (_, _) := ?x in _) => destruct x
  | |- may _ _ (match ?x with _ => _ end) => destruct x
  end.
Ltac may_tac := repeat first [solve [auto with may]|may_step].

Lemma may_be_read Q md inp n : may Q md (be_read inp n). Proof. unfold be_read. may_tac. Qed.
#[local] Hint Resolve may_be_read : may.
Lemma may_be_read_signed Q md inp n : may Q md (be_read_signed inp n). Proof. unfold be_read_signed. may_tac. Qed.
Lemma may_read_i8 Q md inp : may Q md (read_i8 inp). Proof. unfold read_i8. may_tac. Qed.
Lemma may_read_bytes_u8 Q md inp : may Q md (read_bytes_u8 inp). Proof. unfold read_bytes_u8. may_tac. Qed.
Lemma may_read_bytes_u32 Q md inp : may Q md (read_bytes_u32 inp). Proof. unfold read_bytes_u32. may_tac. Qed.
#[local] Hint Resolve may_be_read_signed may_read_i8 may_read_bytes_u8 may_read_bytes_u32 : may.
Lemma may_decode Q md {T} (d : dec T) inp : panics Q d -> may Q md (decode d md inp).
Proof. intros H. unfold decode, decode_format_code. apply may_bind; [auto with may|]. intros [i f]. apply H. Qed.

Section AnyQ.
Variable Q : mode -> panic -> Prop.
Ltac pan d := intros md inp fmt; unfold d; may_tac.
Lemma bool_panics : panics Q bool_dec. Proof. pan bool_dec. Qed.
Lemma u8_panics : panics Q u8_dec. Proof. pan u8_dec. Qed.
Lemma u16_panics : panics Q u16_dec. Proof. pan u16_dec. Qed.
Lemma u32_panics : panics Q u32_dec. Proof. pan u32_dec. Qed.
Lemma u64_panics : panics Q u64_dec. Proof. pan u64_dec. Qed.
Lemma i8_panics : panics Q i8_dec. Proof. pan i8_dec. Qed.
Lemma i16_panics : panics Q i16_dec. Proof. pan i16_dec. Qed.
Lemma i32_panics : panics Q i32_dec. Proof. pan i32_dec. Qed.
Lemma i64_panics : panics Q i64_dec. Proof. pan i64_dec. Qed.
Lemma f32_panics : panics Q f32_dec. Proof. pan f32_dec. Qed.
Lemma f64_panics : panics Q f64_dec. Proof. pan f64_dec. Qed.
Lemma char_panics : panics Q char_dec. Proof. pan char_dec. Qed.
Lemma uuid_panics : panics Q uuid_dec. Proof. pan uuid_dec. Qed.
Lemma bin_panics : panics Q bin_dec. Proof. pan bin_dec. Qed.
Lemma bstr_panics : panics Q bstr_dec. Proof. pan bstr_dec. Qed.
Lemma str_panics : panics Q str_dec. Proof. pan str_dec. Qed.
Lemma symbol_panics : panics Q symbol_dec. Proof. pan symbol_dec. Qed.
Lemma enum_panics {B T} (d : dec B) (f : B -> res T) : panics Q d -> (forall md b, may Q md (f b)) -> panics Q (enum_dec d f).
Proof. intros H1 H2 md inp fmt. unfold enum_dec. apply may_bind; [apply H1|]. intros [i b]. apply may_bind; [apply H2|]. intros v. apply may_ok. Qed.
Lemma role_panics : panics Q role_dec.
Proof. apply enum_panics; [exact bool_panics|]. intros md []; discriminate. Qed.
Lemma sender_settle_mode_panics : panics Q sender_settle_mode_dec.
Proof. apply enum_panics; [exact u8_panics|]. intros md b. unfold sender_settle_mode_try_from. may_tac. Qed.
Lemma receiver_settle_mode_panics : panics Q receiver_settle_mode_dec.
Proof. apply enum_panics; [exact u8_panics|]. intros md b. unfold receiver_settle_mode_try_from. may_tac. Qed.
Lemma sasl_code_panics : panics Q sasl_code_dec.
Proof. apply enum_panics; [exact u8_panics|]. intros md b. unfold sasl_code_try_from. may_tac. Qed.
Lemma terminus_durability_panics : panics Q terminus_durability_dec.
Proof. apply enum_panics; [exact u32_panics|]. intros md b. unfold terminus_durability_try_from. may_tac. Qed.
Lemma terminus_expiry_policy_panics : panics Q terminus_expiry_policy_dec.
Proof. apply enum_panics; [exact symbol_panics|]. intros md b. unfold terminus_expiry_policy_try_from. may_tac. Qed.
Lemma amqp_error_panics : panics Q amqp_error_dec.
Proof. apply enum_panics; [exact symbol_panics|]. intros md b. unfold amqp_error_try_from. may_tac. Qed.
Lemma connection_error_panics : panics Q connection_error_dec.
Proof. apply enum_panics; [exact symbol_panics|]. intros md b. unfold connection_error_try_from. may_tac. Qed.
Lemma session_error_panics : panics Q session_error_dec.
Proof. apply enum_panics; [exact symbol_panics|]. intros md b. unfold session_error_try_from. may_tac. Qed.
Lemma link_error_panics : panics Q link_error_dec.
Proof. apply enum_panics; [exact symbol_panics|]. intros md b. unfold link_error_try_from. may_tac. Qed.
Lemma error_condition_panics : panics Q error_condition_dec.
Proof. intros md inp fmt. unfold error_condition_dec. apply may_bind; [apply symbol_panics|]. intros [i s]. apply may_ok. Qed.
Lemma distribution_mode_panics : panics Q distribution_mode_dec.
Proof. intros md inp fmt. unfold distribution_mode_dec. apply may_bind; [apply symbol_panics|]. intros [i s]. apply may_ok. Qed.
Lemma message_id_panics : panics Q message_id_dec.
Proof.
  intros md inp fmt. unfold message_id_dec.
  repeat (may_step; [apply may_map_res; first [apply u64_panics|apply uuid_panics|apply bin_panics|apply bstr_panics]|]). apply may_err.
Qed.
Lemma option_panics {T} (d : dec T) : panics Q d -> panics Q (option_dec d).
Proof. intros H md inp fmt. unfold option_dec. destruct (_ =? _); [apply may_ok|]. apply may_map_res, H. Qed.
Lemma descriptor_panics : panics Q descriptor_dec.
Proof.
  intros md inp fmt. unfold descriptor_dec.
  repeat (may_step; [apply may_map_res; first [apply u64_panics|apply symbol_panics]|]). apply may_err.
Qed.
Lemma panic_free_panics {T} (S : tspec T) : panic_free S -> panics Q (s_dec S).
Proof.
  induction 1; [exact bool_panics|exact u8_panics|exact u16_panics|exact u32_panics|exact u64_panics|exact i8_panics|exact i16_panics
  |exact i32_panics|exact i64_panics|exact f32_panics|exact f64_panics|exact char_panics|exact uuid_panics|exact bin_panics
  |exact bstr_panics|exact str_panics|exact symbol_panics|exact role_panics|exact sender_settle_mode_panics
  |exact receiver_settle_mode_panics|exact sasl_code_panics|exact terminus_durability_panics|exact terminus_expiry_policy_panics
  |exact amqp_error_panics|exact connection_error_panics|exact session_error_panics|exact link_error_panics
  |exact error_condition_panics|exact distribution_mode_panics|exact message_id_panics|].
  now apply option_panics.
Qed.

(** ** With compound headers *)
Hypothesis Qarith : Q Debug PArith.
Lemma may_usub md bits a b : may Q md (usub md bits a b).
Proof. unfold usub. destruct (_ <? _); [|apply may_ok]. destruct md; [|apply may_ok]. intros p [= <-]. exact Qarith. Qed.
Lemma may_compound8 md inp : may Q md (decode_compound8 md inp).
Proof.
  unfold decode_compound8. destruct inp as [|b0 [|b1 r]]; [cbv; discriminate|cbv; discriminate|].
  apply may_bind; [auto with may|]. intros u. apply may_bind; [apply may_usub|]. intros s. apply may_ok.
Qed.
Lemma may_compound32 md inp : may Q md (decode_compound32 md inp).
Proof. unfold decode_compound32. apply may_bind; [auto with may|]. intros u. apply may_bind; [apply may_usub|]. intros s. apply may_ok. Qed.
Lemma may_list_header md inp fmt : may Q md (decode_list_header md inp fmt).
Proof. unfold decode_list_header. repeat (may_step; [first [apply may_ok|apply may_compound8|apply may_compound32]|]). apply may_err. Qed.
Lemma may_map_header md inp fmt : may Q md (decode_map_header md inp fmt).
Proof. unfold decode_map_header. repeat (may_step; [first [apply may_ok|apply may_compound8|apply may_compound32]|]). apply may_err. Qed.
Lemma may_array_header md inp fmt : may Q md (decode_array_header md inp fmt).
Proof. unfold decode_array_header. repeat (may_step; [first [apply may_ok|apply may_compound8|apply may_compound32]|]). apply may_err. Qed.
Lemma may_open_list md inp : may Q md (open_list md inp).
Proof.
  unfold open_list, decode_format_code. apply may_bind; [auto with may|]. intros [i f]. apply may_bind; [apply may_list_header|].
  intros [i2 h]. apply may_bind; [auto with may|]. intros u. apply may_ok.
Qed.
Lemma may_vec_step {T} md (d : bytes -> res (bytes * T)) : (forall i, may Q md (d i)) -> forall s, may Q md (vec_step d s).
Proof. intros H [i acc]. unfold vec_step. apply may_bind; [apply H|]. intros [i1 x]. apply may_ok. Qed.
Lemma list_panics {T} (d : dec T) : panics Q d -> panics Q (list_dec d).
Proof.
  intros H md inp fmt. unfold list_dec. apply may_bind; [apply may_list_header|]. intros [i h]. apply may_loop.
  apply may_vec_step. intros i'. now apply may_decode.
Qed.

Fixpoint fields_panics {R} (F : fields R) : Prop :=
  match F with
  | FNil => True
  | FReq _ t r | FOpt _ t r | FDef _ t _ r => panics Q (s_dec t) /\ fields_panics r
  end.
Lemma may_fields {R} (F : fields R) md s : fields_panics F -> may Q md (dec_fields F md s).
Proof.
  revert s. induction F as [|T R name t r IH|T R name t r IH|T R name t dflt r IH]; intros [b n] G; cbn [fields_panics dec_fields] in *.
  - apply may_ok.
  - destruct G as [G1 G2]. apply may_bind; [|intros [s1 x]; apply may_bind; [now apply IH|intros [s2 a]; apply may_ok]].
    unfold req_field. destruct (0 <? n); [|apply may_err]. apply may_bind; [now apply may_decode|]. intros [i y]. apply may_ok.
  - destruct G as [G1 G2]. apply may_bind; [|intros [s1 x]; apply may_bind; [now apply IH|intros [s2 a]; apply may_ok]].
    unfold opt_field. destruct (0 <? n); [|apply may_ok]. apply may_bind; [apply may_decode; now apply option_panics|]. intros [i y]. apply may_ok.
  - destruct G as [G1 G2]. apply may_bind; [|intros [s1 x]; apply may_bind; [now apply IH|intros [s2 a]; apply may_ok]].
    unfold def_field. destruct (0 <? n); [|apply may_ok]. apply may_bind; [apply may_decode; now apply option_panics|]. intros [i y]. apply may_ok.
Qed.
Lemma may_inner K md inp : transcribed K -> fields_panics (k_fields K) -> may Q md (k_inner K md inp).
Proof.
  intros Tr F. rewrite composite_inner_eq by easy. apply may_bind; [apply may_open_list|]. intros [s rem].
  apply may_bind; [|intros; apply may_ok]. apply may_bind; [now apply may_fields|]. intros [s' a]. apply may_ok.
Qed.
Lemma composite_panics K : transcribed K -> fields_panics (k_fields K) -> panics Q (s_dec (composite_S K)).
Proof.
  intros Tr F md inp fmt. change (s_dec (composite_S K)) with (c_D (k_codec K)). rewrite (tr_dec K Tr). unfold composite_dec.
  apply may_bind; [auto with may|]. intros u. apply may_bind; [apply may_decode, descriptor_panics|]. intros [i d].
  match goal with |- may _ _ (if ?b then _ else _) => destruct b end; [now apply may_inner|apply may_err].
Qed.
Definition alts_panic {T} (alts : list (alternative T)) : Prop := Forall (fun a => forall md inp, may Q md (d_inner (a_D a) md inp)) alts.
Lemma may_union_select {T} (alts : list (alternative T)) md d inp : alts_panic alts -> may Q md (union_select alts md d inp).
Proof.
  induction 1 as [|a r Ha Hr IH]; cbn [union_select]; [apply may_err|]. destruct (matches _ _ d); [|exact IH]. apply may_map_res, Ha.
Qed.
Lemma union_panics {T} (C : codec T) alts select :
  c_D C = (fun md inp fmt => _ <- validate_code fmt FC_DESCRIBED ;; '(inp1, d) <- decode descriptor_dec md inp ;; select md d inp1) ->
  (forall md d inp, select md d inp = union_select alts md d inp) -> alts_panic alts -> panics Q (c_D C).
Proof.
  intros HD HS A md inp fmt. rewrite HD. apply may_bind; [auto with may|]. intros u.
  apply may_bind; [apply may_decode, descriptor_panics|]. intros [i d]. rewrite HS. now apply may_union_select.
Qed.
Lemma flat_panics K : In K flat_composites -> panics Q (s_dec (composite_S K)).
Proof.
  intros H. apply composite_panics.
  - apply all_composites_ok. revert H. unfold flat_composites, all_composites. cbn [In]. intuition (subst; auto 30).
  - revert H. unfold flat_composites. cbn [In]. intros H; repeat (destruct H as [H|H]; [subst K|]); try contradiction;
      unfold received_K, accepted_K, released_K, sasl_init_K, sasl_challenge_K, sasl_response_K, sasl_outcome_K, header_K;
      cbn [fields_panics k_fields]; repeat match goal with |- _ /\ _ => split end; try exact I; apply panic_free_panics; constructor.
Qed.
End AnyQ.

(** ** Everything else *)
Section AllTypes.
Variable Q : mode -> panic -> Prop.
Hypothesis Qarith : Q Debug PArith.
Hypothesis Qslice : forall md, Q md PSlice.
Hypothesis Qchrono : forall md, Q md PChrono.
Hypothesis Qhash : forall md, Q md PUnimplemented.
Lemma may_slice md {A} : may Q md (@Panic A PSlice). Proof. intros p [= <-]. apply Qslice. Qed.
Lemma datetime_panics : panics Q datetime_dec.
Proof.
  intros md inp fmt. unfold datetime_dec. apply may_bind; [apply may_validate|]. intros u. apply may_bind; [apply may_be_read_signed|].
  intros [i o]. apply may_bind; [|intros; apply may_ok].
  assert (forall s n, may Q md (utc_timestamp s n)) as U.
  { intros s n. unfold utc_timestamp. destruct (_ && _); [apply may_ok|]. intros p [= <-]. apply Qchrono. }
  unfold datetime_from_millis. destruct (_ <? 0); apply U.
Qed.
Lemma map_panics {K V} (KO : key K) (dk : dec K) (dv : dec V) : panics Q dk -> panics Q dv -> panics Q (map_dec KO dk dv).
Proof.
  intros HK HV md inp fmt. unfold map_dec. apply may_bind; [now apply may_map_header|]. intros [i h].
  apply may_bind; [unfold slice_to; destruct (_ <? _); [apply may_slice|apply may_ok]|]. intros mi.
  apply may_bind; [|intros [? ?]; apply may_ok]. apply may_loop. intros [b m]. unfold map_step.
  apply may_bind; [now apply may_decode|]. intros [i1 k]. apply may_bind; [now apply may_decode|]. intros [i2 v].
  destruct (k_hashable KO k); [apply may_ok|]. intros p [= <-]. apply Qhash.
Qed.
Lemma vec_panics {T} (d : dec T) : panics Q d -> panics Q (vec_dec d).
Proof.
  intros H md inp fmt. unfold vec_dec. apply may_bind; [now apply may_array_header|]. intros [[|f i] h]; [apply may_slice|].
  apply may_loop. apply may_vec_step. intros i'. apply H.
Qed.
Lemma multiple_panics {T} (d : dec T) : panics Q d -> panics Q (multiple_dec d).
Proof.
  intros H md inp fmt. unfold multiple_dec. destruct (_ || _); [now apply vec_panics|]. apply may_bind; [apply H|]. intros [i x]. apply may_ok.
Qed.
Lemma variant_fuel_panics fuel : panics Q (variant_dec_fuel fuel).
Proof.
  induction fuel as [|f IH]; intros md inp fmt; cbn [variant_dec_fuel]; [discriminate|].
  repeat (match goal with |- may _ _ (if ?b then _ else _) => destruct b end; [first [apply may_ok
    |apply may_map_res; first [apply bool_panics|apply u8_panics|apply u16_panics|apply u32_panics|apply u64_panics|apply i8_panics
       |apply i16_panics|apply i32_panics|apply i64_panics|apply f32_panics|apply f64_panics|apply char_panics|apply datetime_panics
       |apply uuid_panics|apply bin_panics|apply bstr_panics|apply symbol_panics|now apply list_panics|now apply map_panics]
    |idtac]|]); [|apply may_err].
  apply may_bind; [apply may_decode, descriptor_panics|]. intros [i d]. apply may_bind; [now apply may_decode|]. intros [i2 v]. apply may_ok.
Qed.
Lemma variant_panics : panics Q variant_dec. Proof. intros md inp fmt. apply variant_fuel_panics. Qed.
Lemma vecmap_panics : panics Q vecmap_dec.
Proof.
  intros md inp fmt. unfold vecmap_dec. apply may_bind; [now apply may_map_header|]. intros [i h].
  apply may_bind; [unfold slice_to; destruct (_ <? _); [apply may_slice|apply may_ok]|]. intros mi.
  apply may_bind; [|intros [? ?]; apply may_ok]. apply may_loop. intros [b m]. unfold vecmap_step.
  apply may_bind; [apply may_decode, str_panics|]. intros [i1 k]. apply may_bind; [apply may_decode, variant_panics|]. intros [i2 v]. apply may_ok.
Qed.
Lemma fields_map_panics : panics Q (s_dec fields_S). Proof. apply map_panics; [apply symbol_panics|apply variant_panics]. Qed.
Lemma vmap_panics : panics Q (s_dec vmap_S). Proof. apply map_panics; apply variant_panics. Qed.
Lemma string_variant_map_panics : panics Q (s_dec string_variant_map_S). Proof. apply map_panics; [apply str_panics|apply variant_panics]. Qed.
Lemma filter_set_panics : panics Q (s_dec filter_set_S). Proof. apply map_panics; [apply symbol_panics|apply option_panics, bstr_panics]. Qed.
Lemma symbols_panics : panics Q (s_dec symbols_S). Proof. apply multiple_panics, symbol_panics. Qed.
Lemma list_S_panics : panics Q (s_dec list_S). Proof. apply list_panics; [exact Qarith|apply variant_panics]. Qed.

Create HintDb pan.
Hint Resolve fields_map_panics vmap_panics string_variant_map_panics filter_set_panics symbols_panics list_S_panics : pan.
Hint Extern 1 (panics Q (s_dec datetime_S)) => exact datetime_panics : pan.
Hint Extern 1 (panics Q (s_dec variant_S)) => exact variant_panics : pan.
Hint Extern 2 (panics Q _) => apply panic_free_panics; constructor : pan.
Ltac fp K := unfold K; cbn [fields_panics k_fields]; repeat match goal with |- _ /\ _ => split end; try exact I; auto with pan nocore.
Ltac cp := apply composite_panics; auto with nocore.
Ltac al A := apply Forall_forall; intros a Ha md inp; unfold A in Ha; cbn [In] in Ha;
  repeat (destruct Ha as [<-|Ha]; [cbn [a_D]|]); try contradiction.
Create HintDb panin.
Lemma error_fp : fields_panics Q (k_fields error_K). Proof. fp error_K. Qed.
Lemma error_panics : panics Q (s_dec error_S). Proof. exact (composite_panics Q Qarith _ error_tr error_fp). Qed.
Hint Resolve error_panics : pan.
Lemma error_may md inp : may Q md (d_inner (composite_D error_K) md inp). Proof. exact (may_inner Q Qarith _ md inp error_tr error_fp). Qed.
Hint Resolve error_may : panin.
Lemma received_fp : fields_panics Q (k_fields received_K). Proof. fp received_K. Qed.
Lemma received_panics : panics Q (s_dec received_S). Proof. exact (composite_panics Q Qarith _ received_tr received_fp). Qed.
Hint Resolve received_panics : pan.
Lemma received_may md inp : may Q md (d_inner (composite_D received_K) md inp). Proof. exact (may_inner Q Qarith _ md inp received_tr received_fp). Qed.
Hint Resolve received_may : panin.
Lemma accepted_fp : fields_panics Q (k_fields accepted_K). Proof. fp accepted_K. Qed.
Lemma accepted_panics : panics Q (s_dec accepted_S). Proof. exact (composite_panics Q Qarith _ accepted_tr accepted_fp). Qed.
Hint Resolve accepted_panics : pan.
Lemma accepted_may md inp : may Q md (d_inner (composite_D accepted_K) md inp). Proof. exact (may_inner Q Qarith _ md inp accepted_tr accepted_fp). Qed.
Hint Resolve accepted_may : panin.
Lemma rejected_fp : fields_panics Q (k_fields rejected_K). Proof. fp rejected_K. Qed.
Lemma rejected_panics : panics Q (s_dec rejected_S). Proof. exact (composite_panics Q Qarith _ rejected_tr rejected_fp). Qed.
Hint Resolve rejected_panics : pan.
Lemma rejected_may md inp : may Q md (d_inner (composite_D rejected_K) md inp). Proof. exact (may_inner Q Qarith _ md inp rejected_tr rejected_fp). Qed.
Hint Resolve rejected_may : panin.
Lemma released_fp : fields_panics Q (k_fields released_K). Proof. fp released_K. Qed.
Lemma released_panics : panics Q (s_dec released_S). Proof. exact (composite_panics Q Qarith _ released_tr released_fp). Qed.
Hint Resolve released_panics : pan.
Lemma released_may md inp : may Q md (d_inner (composite_D released_K) md inp). Proof. exact (may_inner Q Qarith _ md inp released_tr released_fp). Qed.
Hint Resolve released_may : panin.
Lemma modified_fp : fields_panics Q (k_fields modified_K). Proof. fp modified_K. Qed.
Lemma modified_panics : panics Q (s_dec modified_S). Proof. exact (composite_panics Q Qarith _ modified_tr modified_fp). Qed.
Hint Resolve modified_panics : pan.
Lemma modified_may md inp : may Q md (d_inner (composite_D modified_K) md inp). Proof. exact (may_inner Q Qarith _ md inp modified_tr modified_fp). Qed.
Hint Resolve modified_may : panin.
Lemma delivery_state_panics : panics Q (s_dec delivery_state_S).
Proof.
  apply (union_panics Q delivery_state_C delivery_state_alts delivery_state_select); [reflexivity|intros md [c|a] inp; reflexivity|].
  al delivery_state_alts; auto with panin nocore.
Qed.
Hint Resolve delivery_state_panics : pan.
Lemma outcome_panics : panics Q (s_dec outcome_S).
Proof.
  apply (union_panics Q outcome_C outcome_alts outcome_select); [reflexivity|intros md [c|a] inp; reflexivity|].
  al outcome_alts; auto with panin nocore.
Qed.
Hint Resolve outcome_panics : pan.
Lemma source_fp : fields_panics Q (k_fields source_K). Proof. fp source_K. Qed.
Lemma source_panics : panics Q (s_dec source_S). Proof. exact (composite_panics Q Qarith _ source_tr source_fp). Qed.
Hint Resolve source_panics : pan.
Lemma source_may md inp : may Q md (d_inner (composite_D source_K) md inp). Proof. exact (may_inner Q Qarith _ md inp source_tr source_fp). Qed.
Hint Resolve source_may : panin.
Lemma target_fp : fields_panics Q (k_fields target_K). Proof. fp target_K. Qed.
Lemma target_panics : panics Q (s_dec target_S). Proof. exact (composite_panics Q Qarith _ target_tr target_fp). Qed.
Hint Resolve target_panics : pan.
Lemma target_may md inp : may Q md (d_inner (composite_D target_K) md inp). Proof. exact (may_inner Q Qarith _ md inp target_tr target_fp). Qed.
Hint Resolve target_may : panin.
Lemma open_fp : fields_panics Q (k_fields open_K). Proof. fp open_K. Qed.
Lemma open_panics : panics Q (s_dec open_S). Proof. exact (composite_panics Q Qarith _ open_tr open_fp). Qed.
Hint Resolve open_panics : pan.
Lemma open_may md inp : may Q md (d_inner (composite_D open_K) md inp). Proof. exact (may_inner Q Qarith _ md inp open_tr open_fp). Qed.
Hint Resolve open_may : panin.
Lemma begin_fp : fields_panics Q (k_fields begin_K). Proof. fp begin_K. Qed.
Lemma begin_panics : panics Q (s_dec begin_S). Proof. exact (composite_panics Q Qarith _ begin_tr begin_fp). Qed.
Hint Resolve begin_panics : pan.
Lemma begin_may md inp : may Q md (d_inner (composite_D begin_K) md inp). Proof. exact (may_inner Q Qarith _ md inp begin_tr begin_fp). Qed.
Hint Resolve begin_may : panin.
Lemma attach_fp : fields_panics Q (k_fields attach_K). Proof. fp attach_K. Qed.
Lemma attach_panics : panics Q (s_dec attach_S). Proof. exact (composite_panics Q Qarith _ attach_tr attach_fp). Qed.
Hint Resolve attach_panics : pan.
Lemma attach_may md inp : may Q md (d_inner (composite_D attach_K) md inp). Proof. exact (may_inner Q Qarith _ md inp attach_tr attach_fp). Qed.
Hint Resolve attach_may : panin.
Lemma flow_fp : fields_panics Q (k_fields flow_K). Proof. fp flow_K. Qed.
Lemma flow_panics : panics Q (s_dec flow_S). Proof. exact (composite_panics Q Qarith _ flow_tr flow_fp). Qed.
Hint Resolve flow_panics : pan.
Lemma flow_may md inp : may Q md (d_inner (composite_D flow_K) md inp). Proof. exact (may_inner Q Qarith _ md inp flow_tr flow_fp). Qed.
Hint Resolve flow_may : panin.
Lemma disposition_fp : fields_panics Q (k_fields disposition_K). Proof. fp disposition_K. Qed.
Lemma disposition_panics : panics Q (s_dec disposition_S). Proof. exact (composite_panics Q Qarith _ disposition_tr disposition_fp). Qed.
Hint Resolve disposition_panics : pan.
Lemma disposition_may md inp : may Q md (d_inner (composite_D disposition_K) md inp). Proof. exact (may_inner Q Qarith _ md inp disposition_tr disposition_fp). Qed.
Hint Resolve disposition_may : panin.
Lemma detach_fp : fields_panics Q (k_fields detach_K). Proof. fp detach_K. Qed.
Lemma detach_panics : panics Q (s_dec detach_S). Proof. exact (composite_panics Q Qarith _ detach_tr detach_fp). Qed.
Hint Resolve detach_panics : pan.
Lemma detach_may md inp : may Q md (d_inner (composite_D detach_K) md inp). Proof. exact (may_inner Q Qarith _ md inp detach_tr detach_fp). Qed.
Hint Resolve detach_may : panin.
Lemma end_fp : fields_panics Q (k_fields end_K). Proof. fp end_K. Qed.
Lemma end_panics : panics Q (s_dec end_S). Proof. exact (composite_panics Q Qarith _ end_tr end_fp). Qed.
Hint Resolve end_panics : pan.
Lemma end_may md inp : may Q md (d_inner (composite_D end_K) md inp). Proof. exact (may_inner Q Qarith _ md inp end_tr end_fp). Qed.
Hint Resolve end_may : panin.
Lemma close_fp : fields_panics Q (k_fields close_K). Proof. fp close_K. Qed.
Lemma close_panics : panics Q (s_dec close_S). Proof. exact (composite_panics Q Qarith _ close_tr close_fp). Qed.
Hint Resolve close_panics : pan.
Lemma close_may md inp : may Q md (d_inner (composite_D close_K) md inp). Proof. exact (may_inner Q Qarith _ md inp close_tr close_fp). Qed.
Hint Resolve close_may : panin.
Lemma sasl_mechanisms_fp : fields_panics Q (k_fields sasl_mechanisms_K). Proof. fp sasl_mechanisms_K. Qed.
Lemma sasl_mechanisms_panics : panics Q (s_dec sasl_mechanisms_S). Proof. exact (composite_panics Q Qarith _ sasl_mechanisms_tr sasl_mechanisms_fp). Qed.
Hint Resolve sasl_mechanisms_panics : pan.
Lemma sasl_mechanisms_may md inp : may Q md (d_inner (composite_D sasl_mechanisms_K) md inp). Proof. exact (may_inner Q Qarith _ md inp sasl_mechanisms_tr sasl_mechanisms_fp). Qed.
Hint Resolve sasl_mechanisms_may : panin.
Lemma sasl_init_fp : fields_panics Q (k_fields sasl_init_K). Proof. fp sasl_init_K. Qed.
Lemma sasl_init_panics : panics Q (s_dec sasl_init_S). Proof. exact (composite_panics Q Qarith _ sasl_init_tr sasl_init_fp). Qed.
Hint Resolve sasl_init_panics : pan.
Lemma sasl_init_may md inp : may Q md (d_inner (composite_D sasl_init_K) md inp). Proof. exact (may_inner Q Qarith _ md inp sasl_init_tr sasl_init_fp). Qed.
Hint Resolve sasl_init_may : panin.
Lemma sasl_challenge_fp : fields_panics Q (k_fields sasl_challenge_K). Proof. fp sasl_challenge_K. Qed.
Lemma sasl_challenge_panics : panics Q (s_dec sasl_challenge_S). Proof. exact (composite_panics Q Qarith _ sasl_challenge_tr sasl_challenge_fp). Qed.
Hint Resolve sasl_challenge_panics : pan.
Lemma sasl_challenge_may md inp : may Q md (d_inner (composite_D sasl_challenge_K) md inp). Proof. exact (may_inner Q Qarith _ md inp sasl_challenge_tr sasl_challenge_fp). Qed.
Hint Resolve sasl_challenge_may : panin.
Lemma sasl_response_fp : fields_panics Q (k_fields sasl_response_K). Proof. fp sasl_response_K. Qed.
Lemma sasl_response_panics : panics Q (s_dec sasl_response_S). Proof. exact (composite_panics Q Qarith _ sasl_response_tr sasl_response_fp). Qed.
Hint Resolve sasl_response_panics : pan.
Lemma sasl_response_may md inp : may Q md (d_inner (composite_D sasl_response_K) md inp). Proof. exact (may_inner Q Qarith _ md inp sasl_response_tr sasl_response_fp). Qed.
Hint Resolve sasl_response_may : panin.
Lemma sasl_outcome_fp : fields_panics Q (k_fields sasl_outcome_K). Proof. fp sasl_outcome_K. Qed.
Lemma sasl_outcome_panics : panics Q (s_dec sasl_outcome_S). Proof. exact (composite_panics Q Qarith _ sasl_outcome_tr sasl_outcome_fp). Qed.
Hint Resolve sasl_outcome_panics : pan.
Lemma sasl_outcome_may md inp : may Q md (d_inner (composite_D sasl_outcome_K) md inp). Proof. exact (may_inner Q Qarith _ md inp sasl_outcome_tr sasl_outcome_fp). Qed.
Hint Resolve sasl_outcome_may : panin.
Lemma header_fp : fields_panics Q (k_fields header_K). Proof. fp header_K. Qed.
Lemma header_panics : panics Q (s_dec header_S). Proof. exact (composite_panics Q Qarith _ header_tr header_fp). Qed.
Hint Resolve header_panics : pan.
Lemma header_may md inp : may Q md (d_inner (composite_D header_K) md inp). Proof. exact (may_inner Q Qarith _ md inp header_tr header_fp). Qed.
Hint Resolve header_may : panin.
Lemma properties_fp : fields_panics Q (k_fields properties_K). Proof. fp properties_K. Qed.
Lemma properties_panics : panics Q (s_dec properties_S). Proof. exact (composite_panics Q Qarith _ properties_tr properties_fp). Qed.
Hint Resolve properties_panics : pan.
Lemma properties_may md inp : may Q md (d_inner (composite_D properties_K) md inp). Proof. exact (may_inner Q Qarith _ md inp properties_tr properties_fp). Qed.
Hint Resolve properties_may : panin.
Lemma sasl_frame_body_panics : panics Q (s_dec sasl_frame_body_S).
Proof.
  apply (union_panics Q sasl_frame_body_C sasl_frame_body_alts sasl_frame_body_select); [reflexivity|intros md [c|a] inp; reflexivity|].
  al sasl_frame_body_alts; auto with panin nocore.
Qed.
Hint Resolve sasl_frame_body_panics : pan.
Lemma section_panics : panics Q (s_dec section_S).
Proof.
  apply (union_panics Q section_C section_alts section_select); [reflexivity|intros md [c|a] inp; reflexivity|].
  al section_alts; auto with panin nocore;
    match goal with |- may _ _ (d_inner (section_D _ _ ?S _ _ _) ?md ?inp) => change (may Q md (decode (s_dec S) md inp)); apply may_decode end;
    auto with pan nocore.
Qed.
Lemma all_composites_panic K : In K all_composites -> panics Q (s_dec (composite_S K)).
Proof.
  unfold all_composites. cbn [In]. intros H; repeat (destruct H as [<-|H]; [eauto with pan nocore|]). contradiction.
Qed.
Lemma types_panic :
  (forall T (S : tspec T), amqp_type S -> panics Q (s_dec S)) /\
  (forall T A width (S : tspec T), element A width S -> panics Q (s_dec S)).
Proof.
  apply types_mutind; intros; try solve [apply panic_free_panics; constructor]; try exact datetime_panics; try exact variant_panics.
  - exact list_S_panics.
  - exact vecmap_panics.
  - now apply all_composites_panic.
  - exact delivery_state_panics.
  - exact outcome_panics.
  - exact sasl_frame_body_panics.
  - exact section_panics.
  - now apply option_panics.
  - now apply map_panics.
  - now apply vec_panics.
  - now apply multiple_panics.
  - now apply map_panics.
Qed.
End AllTypes.

(** ** Statements *)
Lemma panic_free_never {T} (S : tspec T) md bs p : panic_free S -> decode (s_dec S) md bs <> Panic p.
Proof. intros H E. exact (may_decode (fun _ _ => False) md _ _ (panic_free_panics _ S H) p E). Qed.
Lemma flat_never K md bs p : In K flat_composites -> decode (s_dec (composite_S K)) md bs = Panic p -> md = Debug /\ p = PArith.
Proof. intros H. apply (may_decode (fun md p => md = Debug /\ p = PArith)). apply flat_panics; auto. Qed.
Lemma type_panic {T} (S : tspec T) md bs p : amqp_type S -> decode (s_dec S) md bs = Panic p -> possible_panic md p.
Proof. intros H. apply (may_decode possible_panic). now apply (proj1 (types_panic possible_panic eq_refl (fun _ => I) (fun _ => I) (fun _ => I))). Qed.

(** ** Inputs that make decoders panic *)
Lemma map_header_read md n len hdr r : map_header md n len hdr ->
  exists c h, hdr ++ r = c :: h /\ decode_map_header md h c = Ok (r, MkCH len n) /\ (c = 0xc1 \/ c = 0xd1).
Proof.
  intros [(H & S & ->)|(H & S & ->)].
  - eexists 0xc1, _. split; [reflexivity|]. split; [exact (compound8_header md len n r S)|now left].
  - exists 0xd1, (be4 ((len + 4) mod 2 ^ 32) ++ be4 n ++ r). split; [cbn [app]; now rewrite <- app_assoc|].
    split; [exact (compound32_header md len n r S H)|now right].
Qed.
Lemma map_short {K V} (KO : key K) (dk : dec K) (dv : dec V) md n len hdr body : map_header md n len hdr -> zlen body < len ->
  decode (map_dec KO dk dv) md (hdr ++ body) = Panic PSlice.
Proof.
  intros H L. destruct (map_header_read md n len hdr body H) as (c & h & -> & E & _). rewrite decode_cons. unfold map_dec. rewrite E.
  cbn [bind ch_size]. unfold slice_to. destruct (Z.ltb_spec (zlen body) len); [reflexivity|lia].
Qed.
Lemma vecmap_short md n len hdr body : map_header md n len hdr -> zlen body < len ->
  decode vecmap_dec md (hdr ++ body) = Panic PSlice.
Proof.
  intros H L. destruct (map_header_read md n len hdr body H) as (c & h & -> & E & _). rewrite decode_cons. unfold vecmap_dec. rewrite E.
  cbn [bind ch_size]. unfold slice_to. destruct (Z.ltb_spec (zlen body) len); [reflexivity|lia].
Qed.
Lemma variant_map_short md n len hdr body : map_header md n len hdr -> zlen body < len ->
  decode variant_dec md (hdr ++ body) = Panic PSlice.
Proof.
  intros H L. pose proof (map_short variant_key variant_dec variant_dec md n len hdr body H L) as P.
  destruct (map_header_read md n len hdr body H) as (c & h & E & _ & C). rewrite E in P |- *. rewrite decode_cons in P. rewrite decode_cons, variant_dec_unfold.
  destruct C as [-> | ->]; unfold variant_body.
  - change (map_res VMap (map_dec variant_key variant_dec variant_dec md h 0xc1) = Panic PSlice). now rewrite P.
  - change (map_res VMap (map_dec variant_key variant_dec variant_dec md h 0xd1) = Panic PSlice). now rewrite P.
Qed.
Lemma vec_bare {T} (d : dec T) md n len hdr : array_header md n len hdr -> decode (vec_dec d) md hdr = Panic PSlice.
Proof.
  intros H. destruct (array_header_read md n len hdr [] H) as (c & h & E & R). rewrite app_nil_r in E. subst hdr.
  rewrite decode_cons. unfold vec_dec. now rewrite R.
Qed.
Lemma compound8_tiny n r : decode_compound8 Debug (0 :: n :: r) = Panic PArith.
Proof. unfold decode_compound8. rewrite check_len_true by (rewrite !zlen_cons; pose proof (zlen_nonneg r); lia). reflexivity. Qed.
Lemma compound32_tiny size n r : 0 <= size < 4 -> decode_compound32 Debug (be4 size ++ be4 n ++ r) = Panic PArith.
Proof.
  intros H. unfold decode_compound32. rewrite check_len_true by (rewrite !zlen_app, !zlen_be4; pose proof (zlen_nonneg r); lia).
  cbn [bind]. rewrite ztake_app by (rewrite zlen_be4; reflexivity). rewrite be_val_be4 by lia. unfold usub.
  destruct (Z.ltb_spec size 4); [reflexivity|lia].
Qed.
Lemma tiny_split c8 c32 hdr r : tiny_header c8 c32 hdr ->
  (exists i, hdr ++ r = c8 :: i /\ decode_compound8 Debug i = Panic PArith) \/
  (exists i, hdr ++ r = c32 :: i /\ decode_compound32 Debug i = Panic PArith).
Proof.
  intros [(n & ->)|(size & n & H & Hn & ->)].
  - left. eexists. split; [reflexivity|]. apply compound8_tiny.
  - right. exists (be4 size ++ be4 n ++ r). split; [cbn [app]; now rewrite <- app_assoc|]. now apply compound32_tiny.
Qed.
Ltac tiny H r := destruct (tiny_split _ _ _ r H) as [(i & -> & E)|(i & -> & E)]; rewrite decode_cons.
Lemma map_tiny {K V} (KO : key K) (dk : dec K) (dv : dec V) hdr r : tiny_header 0xc1 0xd1 hdr ->
  decode (map_dec KO dk dv) Debug (hdr ++ r) = Panic PArith.
Proof. intros H. tiny H r; unfold map_dec; [change (decode_map_header Debug i 0xc1) with (decode_compound8 Debug i)|change (decode_map_header Debug i 0xd1) with (decode_compound32 Debug i)]; now rewrite E. Qed.
Lemma list_tiny {T} (d : dec T) hdr r : tiny_header 0xc0 0xd0 hdr -> decode (list_dec d) Debug (hdr ++ r) = Panic PArith.
Proof. intros H. tiny H r; unfold list_dec; [change (decode_list_header Debug i 0xc0) with (decode_compound8 Debug i)|change (decode_list_header Debug i 0xd0) with (decode_compound32 Debug i)]; now rewrite E. Qed.
Lemma vec_tiny {T} (d : dec T) hdr r : tiny_header 0xe0 0xf0 hdr -> decode (vec_dec d) Debug (hdr ++ r) = Panic PArith.
Proof. intros H. tiny H r; unfold vec_dec; [change (decode_array_header Debug i 0xe0) with (decode_compound8 Debug i)|change (decode_array_header Debug i 0xf0) with (decode_compound32 Debug i)]; now rewrite E. Qed.
Lemma open_list_tiny hdr r : tiny_header 0xc0 0xd0 hdr -> open_list Debug (hdr ++ r) = Panic PArith.
Proof.
  intros H. destruct (tiny_split _ _ _ r H) as [(i & -> & E)|(i & -> & E)]; unfold open_list, decode_format_code; rewrite read_u8_cons; cbn [bind];
  [change (decode_list_header Debug i 0xc0) with (decode_compound8 Debug i)|change (decode_list_header Debug i 0xd0) with (decode_compound32 Debug i)]; now rewrite E.
Qed.
Lemma composite_tiny K label hdr r : In K all_composites -> wire_label (k_code K) (k_name K) label -> tiny_header 0xc0 0xd0 hdr ->
  decode (s_dec (composite_S K)) Debug (0x00 :: label ++ hdr ++ r) = Panic PArith.
Proof.
  intros HK W H. destruct (all_composites_ok K HK) as [Tr _]. rewrite decode_cons. change (s_dec (composite_S K)) with (c_D (k_codec K)).
  rewrite (tr_dec K Tr). unfold composite_dec. cbn [validate_code FC_DESCRIBED Z.eqb bind].
  destruct (label_decodes (composite_D K) Debug label (tr_code K Tr) W) as (d & Dd & L). rewrite Dd. cbn [bind].
  apply matches_labels in L. unfold matches in L. cbn [d_code d_name composite_D] in L. rewrite L.
  rewrite composite_inner_eq by exact Tr. now rewrite open_list_tiny.
Qed.
Lemma map_unhashable {K V} (KO : key K) (dk : dec K) (dv : dec V) md n len hdr ps content k bk v bv body :
  map_header md n len hdr -> zlen ps < n / 2 -> reads_pairs dk dv md ps content ->
  Forall (fun kv => k_hashable KO (fst kv) = true) ps -> reads dk md bk k -> reads dv md bv v -> k_hashable KO k = false ->
  zlen (content ++ bk ++ bv) <= len -> len <= zlen (content ++ bk ++ bv ++ body) ->
  decode (map_dec KO dk dv) md (hdr ++ content ++ bk ++ bv ++ body) = Panic PUnimplemented.
Proof.
  intros H L R HH Rk Rv Hk L1 L2.
  destruct (map_header_read md n len hdr (content ++ bk ++ bv ++ body) H) as (c & h & -> & E & _). rewrite decode_cons. unfold map_dec. rewrite E.
  cbn [bind ch_size ch_count]. unfold slice_to. destruct (Z.ltb_spec (zlen (content ++ bk ++ bv ++ body)) len); [lia|]. cbn [bind].
  assert (exists b', ztake len (content ++ bk ++ bv ++ body) = content ++ bk ++ bv ++ b') as [b' ->].
  { exists (ztake (len - zlen (content ++ bk ++ bv)) body).
    pose proof (zlen_nonneg content); pose proof (zlen_nonneg bk); pose proof (zlen_nonneg bv).
    transitivity ((content ++ bk ++ bv) ++ ztake (len - zlen (content ++ bk ++ bv)) body); [|now rewrite <- !app_assoc].
    replace (content ++ bk ++ bv ++ body) with ((content ++ bk ++ bv) ++ body) by now rewrite <- !app_assoc.
    unfold ztake. rewrite firstn_app. rewrite firstn_all2 by (unfold zlen in *; lia). f_equal. f_equal. unfold zlen in *. lia. }
  rewrite loop_n_iter. replace (Z.to_nat (n / 2)) with (length ps + S (Z.to_nat (n / 2) - length ps - 1))%nat by (unfold zlen in L; lia).
  rewrite iter_res_add. rewrite (reads_iter KO dk dv md ps content R HH). cbn [bind iter_res map_step]. rewrite Rk. cbn [bind]. rewrite Rv. cbn [bind].
  now rewrite Hk.
Qed.
Lemma timestamp_beyond md ms rest : - 2 ^ 63 <= ms < 2 ^ 63 -> ms / 1000 < chrono_min_secs \/ chrono_max_secs < ms / 1000 ->
  decode datetime_dec md (0x83 :: be8 ms ++ rest) = Panic PChrono.
Proof.
  intros H L. rewrite datetime_read by exact H. unfold chrono_min_secs, chrono_max_secs in L.
  destruct (Z.leb_spec 0 ms).
  - rewrite from_millis_late by easy. unfold chrono_max_secs. destruct (Z.leb_spec (ms / 1000) 8210298412799); [lia|reflexivity].
  - rewrite from_millis_early by lia. unfold chrono_min_secs.
    match goal with |- context [if ?a <=? ?b then _ else _] => destruct (Z.leb_spec a b) as [B|B] end; [|reflexivity].
    exfalso. destruct (Z.eqb_spec (ms mod 1000) 0); lia.
Qed.
