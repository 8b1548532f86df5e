(** Proofs for AccessorClaims.v. *)

From Coq Require Import String.
From Verif Require Import Io BaseFacts Accessors Template Utf8Spec Valid Wire TypeSpec TypeFacts CompositeSpec CompositeFacts AllTypes AllTypesFacts
  CodecSpec CodecFacts CompositeReads MessageSpec FrameSpec FrameFacts GenSpec TemplateFacts AccessorSpec.
Open Scope string_scope.
Open Scope list_scope.
Open Scope Z_scope.

(** The functions that the template gives tell the fields and keep them. *)
Definition made {T R} (F : fields R) (get : T -> R) : functions T F := functions_of F (template_accessors (code_of F) get).
Lemma made_told {R} (F : fields R) T (v : T) : forall (get : T -> R) encs, wire_fields F (get v) encs -> told v F (made F get) encs.
Proof.
  unfold made. induction F as [|X R name t r IH|X R name t r IH|X R name t dflt r IH]; intros get encs W;
    cbn [wire_fields code_of template_accessors functions_of told fst snd acc_get] in *.
  - exact W.
  - destruct encs as [|e encs]; [easy|]. destruct W as [W1 W2]. split; [exact W1|]. exact (IH (fun self => snd (get self)) _ W2).
  - destruct encs as [|e encs].
    + destruct W as [W1 W2]. split; [exact W1|]. exact (IH (fun self => snd (get self)) _ W2).
    + destruct W as [W1 W2]. split; [|exact (IH (fun self => snd (get self)) _ W2)].
      destruct (fst (get v)) as [x|] eqn:E; [right; exists x|left]; easy.
  - destruct encs as [|e encs].
    + destruct W as [W1 W2]. split; [exact W1|]. exact (IH (fun self => snd (get self)) _ W2).
    + destruct W as [W1 W2]. split; [tauto|exact (IH (fun self => snd (get self)) _ W2)].
Qed.
Lemma made_kept {R} (F : fields R) T (v w : T) : forall (get : T -> R), get w = canon_fields F (get v) -> kept v w F (made F get).
Proof.
  unfold made. induction F as [|X R name t r IH|X R name t r IH|X R name t dflt r IH]; intros get E;
    cbn [canon_fields code_of template_accessors functions_of kept fst snd acc_get] in *; [exact I|..];
    (split; [apply (f_equal fst) in E; exact E|]; apply (IH (fun self => snd (get self))); apply (f_equal snd) in E; exact E).
Qed.
Lemma made_names {R} (F : fields R) T : forall get : T -> R, function_names F (made F get) = field_names F.
Proof.
  unfold made. induction F as [|X R name t r IH|X R name t r IH|X R name t dflt r IH]; intros get;
    cbn [code_of template_accessors functions_of function_names field_names fst snd acc_name]; [reflexivity|..]; f_equal; apply IH.
Qed.

Lemma impl_template K L : struct_impl K L -> L = made (k_fields K) (k_to K).
Proof. intros []; reflexivity. Qed.
Lemma impl_listed K L : struct_impl K L -> In K all_composites.
Proof. intros []; unfold all_composites; repeat (first [left; reflexivity|right]). Qed.
Lemma impl_exists K : In K all_composites -> exists L, struct_impl K L.
Proof.
  unfold all_composites. cbn [In]. intros H. repeat destruct H as [<-|H]; [eexists; constructor..|easy].
Qed.
Lemma impl_names K L : struct_impl K L -> function_names (k_fields K) L = field_names (k_fields K).
Proof. intros H. rewrite (impl_template _ _ H). apply made_names. Qed.
Lemma names_distinct K : In K all_composites -> NoDup (field_names (k_fields K)).
Proof.
  intros H. destruct (impl_exists K H) as [L HL]. clear H. destruct HL; vm_compute;
    repeat (apply NoDup_cons; [cbn [In]; intros F; repeat (destruct F as [F|F]; [discriminate F|]); exact F|]); apply NoDup_nil.
Qed.
Lemma every_struct K : In K all_composites ->
  (exists L, struct_impl K L) /\ (forall L, struct_impl K L -> function_names (k_fields K) L = field_names (k_fields K)) /\
  NoDup (field_names (k_fields K)).
Proof. intros H. split; [now apply impl_exists|]. split; [apply impl_names|now apply names_distinct]. Qed.

Lemma accessors_told K L md v label encs n junk bs rest : struct_impl K L -> wire_label (k_code K) (k_name K) label ->
  wire_fields (k_fields K) (k_to K v) encs -> each_field (@s_decodable) (k_fields K) (k_to K v) ->
  n = zlen encs \/ (zlen encs = field_count (k_fields K) /\ zlen encs <= n) ->
  wire_list n (concat encs ++ junk) bs ->
  exists w, decode (s_dec (composite_S K)) md (0x00 :: label ++ bs ++ rest) = Ok (rest, w) /\ told w (k_fields K) L encs.
Proof.
  intros I W WF HD HN WL. exists v. split; [eapply composite_reads; eauto using impl_listed|].
  rewrite (impl_template _ _ I). now apply made_told.
Qed.
Lemma accessors_kept K L md v rest : struct_impl K L ->
  s_valid (composite_S K) v -> s_encodable (composite_S K) v -> s_size (composite_S K) v < 2 ^ 32 ->
  s_decodable (composite_S K) (s_canon (composite_S K) v) ->
  exists w, decode (s_dec (composite_S K)) md (s_bytes (composite_S K) v ++ rest) = Ok (rest, w) /\ kept v w (k_fields K) L.
Proof.
  intros I V E S D. eexists. split; [exact (type_round_trip _ (ty_composite K (impl_listed _ _ I)) md v rest V E S D)|].
  rewrite (impl_template _ _ I). apply made_kept. destruct (all_composites_ok K (impl_listed _ _ I)) as [TR _]. exact (tr_to_of K TR _).
Qed.

Lemma transfer_impl : transfer_accessors = made transfer_table transfer_to.
Proof. reflexivity. Qed.
Lemma transfer_told md r label encs bs p : wire_label 0x14 "amqp:transfer:list" label ->
  wire_fields transfer_table r encs -> each_field (@s_decodable) transfer_table r -> wire_list (zlen encs) (concat encs) bs ->
  exists w, frame_decode md (0x00 :: label ++ bs ++ p) = Ok ([], FR_Transfer w) /\
    told w transfer_table transfer_accessors encs /\ acc_get transfer_body_accessor w = received_payload p.
Proof.
  intros W WF D WL. exists (transfer_of r (received_payload p)). split; [|split].
  - apply transfer_case.
    + exists label, (bs ++ p). split; [exact W|]. split; [|reflexivity]. exists encs, bs, p.
      rewrite transfer_to_of, transfer_body_of. easy.
    + cbn [d_decodable transfer_D]. now rewrite transfer_to_of.
  - rewrite transfer_impl. apply made_told. now rewrite transfer_to_of.
  - apply transfer_body_of.
Qed.
Lemma transfer_kept md v : frame_sendable (FR_Transfer v) ->
  exists w, frame_decode md (frame_bytes (FR_Transfer v)) = Ok ([], FR_Transfer w) /\
    kept v w transfer_table transfer_accessors /\ acc_get transfer_body_accessor w = received_payload (transfer_payload v).
Proof.
  intros H. destruct (transfer_dec_trip md v H) as (w & Hw & E). injection E as ->. apply transfer_dec_frame in Hw.
  exists (d_canon transfer_D v). split; [exact Hw|]. split; [|exact (transfer_body_of _ _)].
  rewrite transfer_impl. apply made_kept. exact (transfer_to_of _ _).
Qed.
Lemma transfer_names : function_names transfer_table transfer_accessors = field_names transfer_table /\
  NoDup (acc_name transfer_body_accessor :: field_names transfer_table).
Proof.
  split; [reflexivity|].
  vm_compute. repeat (apply NoDup_cons; [cbn [In]; intros F; repeat (destruct F as [F|F]; [discriminate F|]); exact F|]); apply NoDup_nil.
Qed.
Lemma generated_told R code name (F : fields R) md a label encs bs rest : generated (composite_S (list_K code name F)) ->
  wire_label code name label -> wire_fields F a encs -> each_field (@s_decodable) F a -> wire_list (zlen encs) (concat encs) bs ->
  let L := functions_of F (template_accessors (code_of F) (fun self => self)) in
  exists w, decode (c_D (template_list code name (code_of F))) md (0x00 :: label ++ bs ++ rest) = Ok (rest, w) /\
    told w F L encs /\ function_names F L = field_names F.
Proof.
  intros G W WF D WL L. exists a. split; [|split; [exact (made_told F R a (fun self => self) encs WF)|apply made_names]].
  replace (0x00 :: label ++ bs ++ rest) with ((0x00 :: label ++ bs) ++ rest) by (cbn [app]; now rewrite app_assoc).
  apply (generated_accepts _ G); [|exact D]. exists label, bs. split; [exact W|]. split; [|reflexivity]. exists encs. easy.
Qed.
