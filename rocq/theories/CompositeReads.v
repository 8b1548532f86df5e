(** Composites and unions as they are read: labels, left-out fields, extra fields, nulls, dispatch. *)

From Coq Require Import String.
From Verif Require Import Definitions BaseFacts Utf8Spec Utf8Facts Valid Wire PrimFacts DecLaws EncLaws VariantFacts TypeSpec TypeFacts CompositeSpec
  CompositeFacts AllTypes AllTypesFacts CodecSpec EqFacts CodecFacts MapFacts ValueFacts ExactFacts.
From Coq Require Import ZifyBool.
Open Scope Z_scope.

Lemma composite_code K : In K all_composites -> 1 <= k_code K < 256.
Proof. intros HK. exact (tr_code _ (proj1 (all_composites_ok K HK))). Qed.
Lemma composite_labelled K md label r : In K all_composites -> wire_label (k_code K) (k_name K) label ->
  decode (s_dec (composite_S K)) md (0x00 :: label ++ r) = k_inner K md r.
Proof.
  intros HK W. destruct (label_decodes (composite_D K) md label (composite_code K HK) W) as (d & D & L).
  rewrite (composite_dec_eq K HK), decode_cons. unfold composite_dec. change (validate_code 0x00 FC_DESCRIBED) with (@Ok unit tt).
  cbn [bind]. etransitivity; [apply (bind_eq _ _ _ (D r))|]. cbn beta iota. apply matches_labels in L.
  change ((if matches (k_code K) (k_name K) d then k_inner K md r else Err (EInvalidDescriptor d)) = k_inner K md r).
  change (matches (k_code K) (k_name K) d = true) in L. now rewrite L.
Qed.
Lemma composite_reads K md v label encs n junk bs rest : In K all_composites -> wire_label (k_code K) (k_name K) label ->
  wire_fields (k_fields K) (k_to K v) encs -> each_field (@s_decodable) (k_fields K) (k_to K v) ->
  n = zlen encs \/ (zlen encs = field_count (k_fields K) /\ zlen encs <= n) ->
  wire_list n (concat encs ++ junk) bs -> decode (s_dec (composite_S K)) md (0x00 :: label ++ bs ++ rest) = Ok (rest, v).
Proof.
  intros HK W WF HD HN WL. rewrite composite_labelled by assumption. destruct (all_composites_ok K HK) as [TR GF].
  exact (composite_inner_accepts K md v encs n junk bs rest TR GF WF HD HN WL).
Qed.
Lemma composite_missing K md label encs junk bs rest name : In K all_composites -> wire_label (k_code K) (k_name K) label ->
  field_missing (k_fields K) encs name -> wire_list (zlen encs) (concat encs ++ junk) bs ->
  decode (s_dec (composite_S K)) md (0x00 :: label ++ bs ++ rest) = Err (ERequiredFieldOmitted name).
Proof.
  intros HK W FM WL. rewrite composite_labelled by assumption. destruct (all_composites_ok K HK) as [TR GF].
  rewrite (composite_inner_eq K md _ TR). etransitivity; [apply (bind_eq _ _ _ (open_list_accepts md _ _ _ rest WL))|]. cbn beta iota.
  apply bind_err, bind_err. exact (fields_missing _ md encs junk name GF FM).
Qed.
Fixpoint mandatory_codes {R} (F : fields R) : bool :=
  match F with
  | FNil => true
  | FReq _ t r => forallb (fun c => negb (c =? 0x40)) (s_codes t) && mandatory_codes r
  | FOpt _ _ r | FDef _ _ _ r => mandatory_codes r
  end.
Lemma fields_null {R} (F : fields R) md encs junk n : good_fields F -> mandatory_codes F = true -> null_mandatory F encs -> zlen encs <= n ->
  dec_fields F md (concat encs ++ junk, n) = Err (EInvalidFormatCode 0x40).
Proof.
  revert encs n. induction F as [|T R name t r IH|T R name t r IH|T R name t dflt r IH]; intros encs n G MC FM HN; [easy| | |];
    destruct encs as [|e encs]; cbn [null_mandatory] in FM; try easy; cbn [dec_fields concat]; rewrite <- app_assoc;
    rewrite zlen_cons in HN; pose proof (zlen_nonneg encs).
  - destruct G as [G1 G2]. cbn [mandatory_codes] in MC. apply andb_prop in MC as [M1 M2]. rewrite req_field_more by lia. destruct FM as [->|[(x & W & D) FM]].
    + cbn [app]. apply bind_err, bind_err. rewrite decode_cons. apply (g_reject t G1). intros HI. rewrite forallb_forall in M1. now apply M1 in HI.
    + change (c_D (s_codec t)) with (s_dec t). rewrite (g_accepts t G1 md x e W D (concat encs ++ junk)). cbn [bind].
      apply bind_err. apply IH; auto. lia.
  - destruct G as [[G1 N1] G2]. cbn [mandatory_codes] in MC. rewrite opt_field_more by lia. destruct FM as [FE FM].
    assert (exists o, decode (option_dec (c_D (s_codec t))) md (e ++ concat encs ++ junk) = Ok (concat encs ++ junk, o)) as [o E].
    { destruct FE as [->|(x & W & D)]; [exists None; apply (decode_option t md None); easy|exists (Some x); now apply (decode_option t md (Some x))]. }
    rewrite E. cbn [bind]. apply bind_err. apply IH; auto. lia.
  - destruct G as [[G1 [N1 V1]] G2]. cbn [mandatory_codes] in MC. rewrite def_field_more by lia. destruct FM as [FE FM].
    assert (exists o, decode (option_dec (c_D (s_codec t))) md (e ++ concat encs ++ junk) = Ok (concat encs ++ junk, o)) as [o E].
    { destruct FE as [->|(x & W & D)]; [exists None; apply (decode_option t md None); easy|exists (Some x); now apply (decode_option t md (Some x))]. }
    rewrite E. cbn [bind]. apply bind_err. apply IH; auto. lia.
Qed.
Lemma all_mandatory_codes K : In K all_composites -> mandatory_codes (k_fields K) = true.
Proof. intros H. repeat (destruct H as [<-|H]; [vm_compute; reflexivity|]). destruct H. Qed.
Lemma composite_null K md label encs junk n bs rest : In K all_composites -> wire_label (k_code K) (k_name K) label ->
  null_mandatory (k_fields K) encs -> zlen encs <= n -> wire_list n (concat encs ++ junk) bs ->
  decode (s_dec (composite_S K)) md (0x00 :: label ++ bs ++ rest) = Err (EInvalidFormatCode 0x40).
Proof.
  intros HK W FM HN WL. rewrite composite_labelled by assumption. destruct (all_composites_ok K HK) as [TR GF].
  rewrite (composite_inner_eq K md _ TR). etransitivity; [apply (bind_eq _ _ _ (open_list_accepts md _ _ _ rest WL))|]. cbn beta iota.
  apply bind_err, bind_err. exact (fields_null _ md encs junk n GF (all_mandatory_codes K HK) FM HN).
Qed.
Lemma composite_layout K v : In K all_composites -> s_valid (composite_S K) v -> s_encodable (composite_S K) v -> s_size (composite_S K) v < 2 ^ 32 ->
  exists encs, zlen encs = field_count (k_fields K) /\
    wire_fields (k_fields K) (canon_fields (k_fields K) (k_to K v)) encs /\
    s_bytes (composite_S K) v = 0x00 :: 0x53 :: k_code K :: emitted_list (field_count (k_fields K)) (concat encs).
Proof.
  intros HK HV HE HS. destruct (all_composites_ok K HK) as [TR GF]. exists (field_bytes (k_fields K) (k_to K v)).
  split; [apply field_bytes_count|]. split.
  - apply fields_emits; auto. change (e_size (c_E (k_codec K)) v < 2 ^ 32) in HS. rewrite (tr_size _ TR) in HS. unfold composite_size in HS.
    destruct (255 <? _); lia.
  - exact (composite_bytes K v TR GF HV).
Qed.
(** ** Unions *)
Record union_facts {T} (S : tspec T) (alts : list (alternative T)) : Prop := MkUF {
  uf_alts : alts_ok alts;
  uf_codes : Forall (fun a => 1 <= d_code (a_D a) < 256) alts;
  uf_dec : forall md d inp inp1, decode descriptor_dec md inp = Ok (inp1, d) ->
    decode (s_dec S) md (0x00 :: inp) = union_select alts md d inp1;
  uf_all : forall v, exists a x, In a alts /\ v = a_inj a x;
  uf_enc : Forall (fun a => forall x, s_size S (a_inj a x) = e_size (d_E (a_D a)) x /\ s_bytes S (a_inj a x) = wbytes (e_enc (d_E (a_D a)) x)) alts
}.
Ltac find_alt := match goal with |- exists a x, In a ?l /\ ?f ?y = _ =>
  let rec go ll := match ll with ?a :: ?r => (exists a, y; split; [unfold l; repeat (first [left; reflexivity|right])|reflexivity]) || go r end in
  let ll := eval unfold l in l in go ll end.
Lemma union_type_facts {T} (S : tspec T) alts : union_type S alts -> union_facts S alts.
Proof.
  destruct 1; constructor.
  - exact delivery_state_alts_ok.
  - unfold delivery_state_alts. repeat (apply Forall_cons; [vm_compute; split; congruence|]); apply Forall_nil.
  - intros md d inp inp1 E. rewrite decode_cons. change (s_dec delivery_state_S) with delivery_state_dec. unfold delivery_state_dec.
    change (validate_code 0x00 FC_DESCRIBED) with (@Ok unit tt). cbn [bind]. rewrite E. cbn [bind]. destruct d; reflexivity.
  - intros []; find_alt.
  - unfold delivery_state_alts. repeat (apply Forall_cons; [now split|]); apply Forall_nil.
  - exact outcome_alts_ok.
  - unfold outcome_alts. repeat (apply Forall_cons; [vm_compute; split; congruence|]); apply Forall_nil.
  - intros md d inp inp1 E. rewrite decode_cons. change (s_dec outcome_S) with outcome_dec. unfold outcome_dec.
    change (validate_code 0x00 FC_DESCRIBED) with (@Ok unit tt). cbn [bind]. rewrite E. cbn [bind]. destruct d; reflexivity.
  - intros []; find_alt.
  - unfold outcome_alts. repeat (apply Forall_cons; [now split|]); apply Forall_nil.
  - exact sasl_frame_body_alts_ok.
  - unfold sasl_frame_body_alts. repeat (apply Forall_cons; [vm_compute; split; congruence|]); apply Forall_nil.
  - intros md d inp inp1 E. rewrite decode_cons. change (s_dec sasl_frame_body_S) with sasl_frame_body_dec. unfold sasl_frame_body_dec.
    change (validate_code 0x00 FC_DESCRIBED) with (@Ok unit tt). cbn [bind]. rewrite E. cbn [bind]. destruct d; reflexivity.
  - intros []; find_alt.
  - unfold sasl_frame_body_alts. repeat (apply Forall_cons; [now split|]); apply Forall_nil.
  - exact section_alts_ok.
  - unfold section_alts. repeat (apply Forall_cons; [vm_compute; split; congruence|]); apply Forall_nil.
  - intros md d inp inp1 E. rewrite decode_cons. change (s_dec section_S) with section_dec. unfold section_dec.
    change (validate_code 0x00 FC_DESCRIBED) with (@Ok unit tt). cbn [bind]. rewrite E. cbn [bind]. destruct d; reflexivity.
  - intros []; find_alt.
  - unfold section_alts. repeat (apply Forall_cons; [now split|]); apply Forall_nil.
Qed.
Lemma union_named {T} (S : tspec T) alts : union_type S alts -> forall md a label r, In a alts ->
  wire_label (d_code (a_D a)) (d_name (a_D a)) label ->
  decode (s_dec S) md (0x00 :: label ++ r) = map_res (a_inj a) (d_inner (a_D a) md r).
Proof.
  intros U md a label r Ha W. destruct (union_type_facts S alts U) as [[AC AN _ _] HC HD _ _]. rewrite Forall_forall in HC.
  destruct (label_decodes (a_D a) md label (HC a Ha) W) as (d & D & L). rewrite (HD md d _ r (D r)). now apply select_label.
Qed.
Lemma union_other {T} (S : tspec T) alts : union_type S alts -> forall md d label r, wire_descriptor d label -> d <> DUlong 0 ->
  Forall (fun a => ~ names (a_D a) d) alts -> decode (s_dec S) md (0x00 :: label ++ r) = Err (EInvalidDescriptor d).
Proof.
  intros U md d label r W N HN. destruct (union_type_facts S alts U) as [_ _ HD _ _].
  rewrite (HD md d _ r (descriptor_accepts md d label N W r)). now apply select_none.
Qed.
Lemma union_covers {T} (S : tspec T) alts : union_type S alts -> forall v, exists a x, In a alts /\ v = a_inj a x.
Proof. intros U. exact (uf_all _ _ (union_type_facts S alts U)). Qed.
Lemma union_unique {T} (S : tspec T) alts : union_type S alts -> forall a b x y, In a alts -> In b alts -> a_inj a x = a_inj b y -> a = b.
Proof.
  intros U a b x y Ha Hb E. destruct (union_type_facts S alts U) as [[_ _ HP HD] _ _ _ _]. clear U. rewrite Forall_forall in HP.
  assert (P1 : a_prj a (a_inj b y) = Some x) by (apply HP; auto). assert (P2 : a_prj b (a_inj a x) = Some y) by (apply HP; auto).
  clear HP E. induction HD as [|c r H HD IH]; [easy|]. rewrite Forall_forall in H. destruct Ha as [->|Ha], Hb as [->|Hb]; auto.
  - rewrite (H b Hb) in P1. discriminate.
  - rewrite (H a Ha) in P2. discriminate.
Qed.
Lemma union_round_trip {T} (S : tspec T) alts : union_type S alts -> forall md v rest,
  s_valid S v -> s_encodable S v -> s_size S v < 2 ^ 32 -> s_decodable S (s_canon S v) ->
  decode (s_dec S) md (s_bytes S v ++ rest) = Ok (rest, s_canon S v).
Proof. intros U. apply type_round_trip. destruct U; constructor. Qed.
