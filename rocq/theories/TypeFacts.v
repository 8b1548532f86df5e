(** The codecs meet their specifications. *)

From Coq Require Import String.
From Verif Require Import Protocol BaseFacts Utf8Spec Utf8Facts Valid Wire PrimFacts DecLaws EncLaws VariantFacts TypeSpec.
From Coq Require Import ZifyBool.
Ltac Zify.zify_post_hook ::= Z.div_mod_to_equations.
Open Scope string_scope.
Open Scope list_scope.
Open Scope Z_scope.

Record good {T} (S : tspec T) : Prop := MkGood {
  g_enc : enc_lawful (s_valid S) (c_E (s_codec S));
  g_dec : dec_lawful (s_valid S) (s_dec S);
  g_total : total (s_dec S);
  g_emits : forall v, s_valid S v -> s_encodable S v -> s_size S v < 2 ^ 32 -> s_wire S (s_canon S v) (s_bytes S v);
  g_accepts : forall md v bs, s_wire S v bs -> s_decodable S v -> decodes md (s_dec S) bs v;
  g_codes : forall v bs, s_wire S v bs -> exists c r, bs = c :: r /\ In c (s_codes S);
  g_reject : forall md inp fmt, ~ In fmt (s_codes S) -> s_dec S md inp fmt = Err (EInvalidFormatCode fmt)
}.

Lemma good_round_trip {T} (S : tspec T) md v : good S ->
  s_valid S v -> s_encodable S v -> s_size S v < 2 ^ 32 -> s_decodable S (s_canon S v) ->
  decodes md (s_dec S) (s_bytes S v) (s_canon S v).
Proof. intros G H1 H2 H3 H4. apply (g_accepts S G); [now apply (g_emits S G)|exact H4]. Qed.

(** No format code in the list: every comparison fails. *)
Ltac find_in := cbv; repeat (first [left; reflexivity | right]).
Ltac reject_codes H :=
  repeat match goal with
  | |- context [?f =? ?c] => is_var f;
      let E := fresh in destruct (Z.eqb_spec f c) as [E|E]; [exfalso; apply H; subst f; find_in|]
  end.
Lemma validate_reject fmt c : fmt <> c -> validate_code fmt c = Err (EInvalidFormatCode fmt).
Proof. intros H. unfold validate_code. now destruct (Z.eqb_spec fmt c). Qed.
Ltac reject_validate H :=
  rewrite validate_reject by (let E := fresh in intros E; apply H; rewrite E; find_in); reflexivity.

Lemma wire_var_codes c8 c32 b bs : wire_var c8 c32 b bs -> exists c r, bs = c :: r /\ In c [c8; c32].
Proof. intros [b' H|b' H]; eexists _, _; (split; [reflexivity|]); cbn [In]; auto. Qed.

Section Prims.
  Local Ltac codes := intros; subst; eexists _, _; (split; [reflexivity|]); find_in.
  Local Ltac rej d := intros md inp fmt H; change (d md inp fmt = Err (EInvalidFormatCode fmt)); unfold d; first [reject_validate H | reject_codes H; reflexivity].

  Lemma bool_good : good bool_S.
  Proof.
    constructor; [exact bool_el|exact bool_lawful|exact bool_total| | | |].
    - intros v _ _ _. apply bool_emits.
    - intros md v bs H _. now apply bool_accepts.
    - intros v bs H. destruct H; codes.
    - rej bool_dec.
  Qed.
  Lemma u8_good : good u8_S.
  Proof.
    constructor; [intros v _; now apply u8_el|exact u8_lawful|exact u8_total| | | |].
    - intros v H _ _. split; [exact H|]. now apply u8_emits.
    - intros md v bs [H ->] _. now apply u8_accepts.
    - intros v bs [H ->]. codes.
    - rej u8_dec.
  Qed.
  Lemma u16_good : good u16_S.
  Proof.
    constructor; [intros v _; now apply u16_el|exact u16_lawful|exact u16_total| | | |].
    - intros v H _ _. split; [exact H|]. now apply u16_emits.
    - intros md v bs [H ->] _. now apply u16_accepts.
    - intros v bs [H ->]. codes.
    - rej u16_dec.
  Qed.
  Lemma u32_good : good u32_S.
  Proof.
    constructor; [intros v _; now apply u32_el|exact u32_lawful|exact u32_total| | | |].
    - intros v H _ _. now apply u32_emits.
    - intros md v bs H _. now apply u32_accepts.
    - intros v bs H. destruct H; codes.
    - rej u32_dec.
  Qed.
  Lemma u64_good : good u64_S.
  Proof.
    constructor; [intros v _; now apply u64_el|exact u64_lawful|exact u64_total| | | |].
    - intros v H _ _. now apply u64_emits.
    - intros md v bs H _. now apply u64_accepts.
    - intros v bs H. destruct H; codes.
    - rej u64_dec.
  Qed.
  Lemma i8_good : good i8_S.
  Proof.
    constructor; [intros v _; now apply i8_el|exact i8_lawful|exact i8_total| | | |].
    - intros v H _ _. split; [exact H|]. now apply i8_emits.
    - intros md v bs [H ->] _. now apply i8_accepts.
    - intros v bs [H ->]. codes.
    - rej i8_dec.
  Qed.
  Lemma i16_good : good i16_S.
  Proof.
    constructor; [intros v _; now apply i16_el|exact i16_lawful|exact i16_total| | | |].
    - intros v H _ _. split; [exact H|]. now apply i16_emits.
    - intros md v bs [H ->] _. now apply i16_accepts.
    - intros v bs [H ->]. codes.
    - rej i16_dec.
  Qed.
  Lemma i32_good : good i32_S.
  Proof.
    constructor; [intros v _; now apply i32_el|exact i32_lawful|exact i32_total| | | |].
    - intros v H _ _. now apply i32_emits.
    - intros md v bs H _. now apply i32_accepts.
    - intros v bs H. destruct H; codes.
    - rej i32_dec.
  Qed.
  Lemma i64_good : good i64_S.
  Proof.
    constructor; [intros v _; now apply i64_el|exact i64_lawful|exact i64_total| | | |].
    - intros v H _ _. now apply i64_emits.
    - intros md v bs H _. now apply i64_accepts.
    - intros v bs H. destruct H; codes.
    - rej i64_dec.
  Qed.
  Lemma f32_good : good f32_S.
  Proof.
    constructor; [intros v _; now apply f32_el|exact f32_lawful|exact f32_total| | | |].
    - intros v H _ _. split; [exact H|]. now apply f32_emits.
    - intros md v bs [H ->] _. now apply f32_accepts.
    - intros v bs [H ->]. codes.
    - rej f32_dec.
  Qed.
  Lemma f64_good : good f64_S.
  Proof.
    constructor; [intros v _; now apply f64_el|exact f64_lawful|exact f64_total| | | |].
    - intros v H _ _. split; [exact H|]. now apply f64_emits.
    - intros md v bs [H ->] _. now apply f64_accepts.
    - intros v bs [H ->]. codes.
    - rej f64_dec.
  Qed.
  Lemma char_good : good char_S.
  Proof.
    constructor; [intros v _; now apply char_el|exact char_lawful|exact char_total| | | |].
    - intros v H _ _. split; [exact H|]. now apply char_emits.
    - intros md v bs [H ->] _. now apply char_accepts.
    - intros v bs [H ->]. codes.
    - rej char_dec.
  Qed.
  Lemma datetime_good : good datetime_S.
  Proof.
    constructor; [intros v _; now apply datetime_el|exact datetime_lawful|exact datetime_total| | | |].
    - intros v H _ _. exists (millis v). split; [now apply datetime_millis_range|]. split; [reflexivity|]. now apply datetime_emits.
    - intros md v bs (ms & H & -> & ->) Hd. now apply datetime_accepts.
    - intros v bs (ms & H & -> & ->). codes.
    - rej datetime_dec.
  Qed.
  Lemma uuid_good : good uuid_S.
  Proof.
    constructor; [exact uuid_el|exact uuid_lawful|exact uuid_total| | | |].
    - intros v H _ _. split; [exact H|]. now apply uuid_emits.
    - intros md v bs [[H1 H2] ->] _. now apply uuid_accepts.
    - intros v bs [H ->]. codes.
    - rej uuid_dec.
  Qed.
  Lemma bin_good : good bin_S.
  Proof.
    constructor; [exact bin_el|exact bin_lawful|exact bin_total| | | |].
    - intros v H _ Hs. apply bin_emits; [exact H|]. now apply var_size_bound.
    - intros md v bs H _. now apply bin_accepts.
    - intros v bs [_ H]. now apply wire_var_codes in H.
    - rej bin_dec.
  Qed.
  Lemma bstr_good : good bstr_S.
  Proof.
    constructor; [exact bstr_el|exact bstr_lawful|exact bstr_total| | | |].
    - intros v H _ Hs. apply bstr_emits; [exact H|]. now apply var_size_bound.
    - intros md v bs H _. now apply bstr_accepts.
    - intros v bs [_ H]. now apply wire_var_codes in H.
    - rej bstr_dec.
  Qed.
  Lemma str_good : good str_S.
  Proof.
    constructor; [exact str_el|exact str_lawful|exact str_total| | | |].
    - intros v H _ Hs. exists (str_bytes v). split; [reflexivity|]. apply str_emits; [exact H|]. now apply var_size_bound.
    - intros md v bs (b & -> & H) _. now apply str_accepts.
    - intros v bs (b & _ & _ & H). now apply wire_var_codes in H.
    - rej str_dec.
  Qed.
  Lemma symbol_good : good symbol_S.
  Proof.
    constructor; [exact symbol_el|exact symbol_lawful|exact symbol_total| | | |].
    - intros v H _ Hs. exists (str_bytes v). split; [reflexivity|]. apply symbol_emits; [exact H|]. now apply var_size_bound.
    - intros md v bs (b & -> & H) _. now apply symbol_accepts.
    - intros v bs (b & _ & _ & H). now apply wire_var_codes in H.
    - rej symbol_dec.
  Qed.
  Lemma wire_codes v bs : wire v bs -> exists c r, bs = c :: r /\ In c (s_codes variant_S).
  Proof.
    intros H. destruct H; try codes.
    all: try match goal with H : wire_boolean _ _ |- _ => destruct H; codes end.
    all: try match goal with H : wire_uint _ _ |- _ => destruct H; codes end.
    all: try match goal with H : wire_ulong _ _ |- _ => destruct H; codes end.
    all: try match goal with H : wire_int _ _ |- _ => destruct H; codes end.
    all: try match goal with H : wire_long _ _ |- _ => destruct H; codes end.
    all: destruct H as [_ H]; destruct H; codes.
  Qed.
  Lemma variant_good : good variant_S.
  Proof.
    constructor; [exact variant_el|exact variant_lawful|exact variant_total| | | |].
    - intros v H Hl Hs. now apply variant_emits.
    - intros md v bs H Hd. now apply variant_accepts.
    - apply wire_codes.
    - intros md inp fmt H. cbn [s_dec s_codec variant_S variant_C c_D]. rewrite variant_dec_unfold. unfold variant_body.
      reject_codes H. reflexivity.
  Qed.
End Prims.

(** ** Null *)
Lemma option_good {T} (S : tspec T) : good S -> ~ In 0x40 (s_codes S) -> good (option_S S).
Proof.
  intros G Hn. constructor.
  - apply option_el. apply (g_enc S G).
  - apply option_lawful. apply (g_dec S G).
  - intros md inp fmt E. unfold s_dec in E. cbn [s_codec option_S option_C c_D] in E. unfold option_dec in E.
    destruct (fmt =? FC_NULL); [discriminate|]. apply map_res_oof in E. now apply (g_total S G) in E.
  - intros [v|] H1 H2 H3; [now apply (g_emits S G)|]. reflexivity.
  - intros md [v|] bs H Hd; cbn [s_wire option_S] in H.
    + destruct (g_codes S G _ _ H) as (c & r & -> & Hc). apply decodes_cons. intros rest.
      change (s_dec (option_S S)) with (option_dec (s_dec S)). unfold option_dec.
      destruct (Z.eqb_spec c FC_NULL) as [->|_]; [contradiction|].
      pose proof (g_accepts S G md v _ H Hd rest) as D. cbn [app] in D. rewrite decode_cons in D. now rewrite D.
    + subst bs. apply decodes_cons. reflexivity.
  - intros [v|] bs H; cbn [s_wire option_S] in H.
    + destruct (g_codes S G _ _ H) as (c & r & -> & Hc). exists c, r. split; [reflexivity|now right].
    + subst bs. exists 0x40, []. split; [reflexivity|now left].
  - intros md inp fmt H. cbn [s_codes option_S In] in H.
    change (s_dec (option_S S)) with (option_dec (s_dec S)). unfold option_dec.
    destruct (Z.eqb_spec fmt FC_NULL) as [->|_]; [exfalso; now auto|].
    rewrite (g_reject S G) by auto. reflexivity.
Qed.

(** ** Maps *)
Section Maps.
  Context {K V : Type} (SK : tspec K) (SV : tspec V) (GK : good SK) (GV : good SV).
  Let EK := c_E (s_codec SK).
  Let EV := c_E (s_codec SV).

  Lemma codes_len {T} (S : tspec T) v bs : good S -> s_wire S v bs -> 1 <= zlen bs.
  Proof.
    intros G H. destruct (g_codes S G _ _ H) as (c & r & -> & _). rewrite zlen_cons. pose proof (zlen_nonneg r). lia.
  Qed.
  Lemma pairs_len m bs : wire_pairs (s_wire SK) (s_wire SV) m bs -> 2 * zlen m <= zlen bs.
  Proof.
    induction 1 as [|k v m bk bv bs Hk Hv Hm IH]; [cbn; lia|]. rewrite zlen_cons, !zlen_app.
    apply (codes_len SK) in Hk; [|easy]. apply (codes_len SV) in Hv; [|easy]. lia.
  Qed.
  Lemma pairs_emits m :
    Forall (both (s_valid SK) (s_valid SV)) m -> Forall (both (s_encodable SK) (s_encodable SV)) m ->
    map_encoded_size (e_size EK) (e_size EV) m < 2 ^ 32 ->
    wire_pairs (s_wire SK) (s_wire SV) (map (on_both (s_canon SK) (s_canon SV)) m)
      (wbytes (map_entries (e_enc EK) (e_enc EV) m)).
  Proof.
    induction m as [|[k v] m IH]; intros Hv He Hs; [constructor|].
    inversion Hv as [|? ? [Hvk Hvv] Hvm]; subst. inversion He as [|? ? [Hek Hev] Hem]; subst. cbn [fst snd] in *.
    unfold map_encoded_size, map_entries in *. cbn [zsum flat_map map] in *. rewrite !wbytes_app, <- app_assoc.
    assert (0 <= zsum (fun kv : K * V => let (k, v) := kv in e_size EK k + e_size EV v) m).
    { apply zsum_nonneg. intros [k' v'] Hin. rewrite Forall_forall in Hvm. destruct (Hvm _ Hin) as [H1 H2].
      destruct (g_enc SK GK _ H1) as [_ ?]. destruct (g_enc SV GV _ H2) as [_ ?]. unfold EK, EV. cbn [fst snd] in *. lia. }
    destruct (g_enc SK GK _ Hvk) as [_ P1]. destruct (g_enc SV GV _ Hvv) as [_ P2].
    unfold EK, EV in *. constructor.
    - apply (g_emits SK GK); auto. unfold s_size. cbn [fst snd]. lia.
    - apply (g_emits SV GV); auto. unfold s_size. cbn [fst snd]. lia.
    - apply IH; auto. lia.
  Qed.
  Lemma map_emits m :
    Forall (both (s_valid SK) (s_valid SV)) m -> Forall (both (s_encodable SK) (s_encodable SV)) m ->
    map_size (e_size EK) (e_size EV) m < 2 ^ 32 ->
    wire_map (s_wire SK) (s_wire SV) (map (on_both (s_canon SK) (s_canon SV)) m)
      (wbytes (map_enc (e_size EK) (e_enc EK) (e_size EV) (e_enc EV) m)).
  Proof.
    intros Hv He Hs. unfold map_size in Hs.
    assert (F : Forall (fun kv => enc_fits (e_size EK (fst kv)) (e_enc EK (fst kv)) /\
                                  enc_fits (e_size EV (snd kv)) (e_enc EV (snd kv))) m).
    { eapply Forall_impl; [|exact Hv]. intros kv [H1 H2]. split; [now apply (g_enc SK GK)|now apply (g_enc SV GV)]. }
    apply map_entries_fits in F. destruct F as [F _].
    assert (W := pairs_emits m Hv He ltac:(destruct (255 <? _) in Hs; lia)).
    pose proof (pairs_len _ _ W) as Hc. rewrite zlen_map, F in Hc. pose proof (zlen_nonneg m).
    unfold map_enc. rewrite Z.mul_comm.
    destruct (Z.ltb_spec 255 (map_encoded_size (e_size EK) (e_size EV) m + 1)); wb.
    - change (FC_MAP32 mod 256) with 0xd1. rewrite <- app_assoc. rewrite <- F at 1.
      rewrite <- (zlen_map (on_both (s_canon SK) (s_canon SV)) m).
      apply WM_32; [exact W|]. lia.
    - change (FC_MAP8 mod 256) with 0xc1. rewrite (Z.mod_small (_ + 1)) by lia. rewrite (Z.mod_small (2 * _)) by lia.
      rewrite <- F at 1. rewrite <- (zlen_map (on_both (s_canon SK) (s_canon SV)) m).
      apply WM_8; [exact W|]. lia.
  Qed.

  (** Reading: the header and the slice, for either kind of map. *)
  Lemma wire_map_read md m bs rest : wire_map (s_wire SK) (s_wire SV) m bs ->
    exists c r content, bs = c :: r /\ (c = 0xc1 \/ c = 0xd1) /\ wire_pairs (s_wire SK) (s_wire SV) m content /\
      forall X (f : bytes -> Z -> res X),
      ('(inp1, header) <- decode_map_header md (r ++ rest) c ;;
       map_input <- slice_to inp1 (ch_size header) ;;
       x <- f map_input (ch_count header / 2) ;; Ok (zdrop (ch_size header) inp1, x))
      = (x <- f content (zlen m) ;; Ok (rest, x)).
  Proof.
    intros [m' content W Hl|m' content W Hl]; eexists _, _, content; (split; [reflexivity|]);
      (split; [now auto|]); (split; [exact W|]); intros X f; unfold decode_map_header;
      pose proof (zlen_nonneg content); pose proof (zlen_nonneg m'); pose proof (pairs_len _ _ W).
    - cbn [FC_MAP8 Z.eqb Pos.eqb app]. rewrite compound8_read by lia. cbn [bind ch_count ch_size].
      replace (zlen content + 1 - 1) with (zlen content) by lia. unfold slice_to.
      destruct (Z.ltb_spec (zlen (content ++ rest)) (zlen content)); [rewrite zlen_app in *; pose proof (zlen_nonneg rest); lia|].
      cbn [bind]. rewrite ztake_app, zdrop_app by easy. now replace (2 * zlen m' / 2) with (zlen m') by lia.
    - cbn [FC_MAP8 FC_MAP32 Z.eqb Pos.eqb]. rewrite <- !app_assoc. rewrite compound32_read by lia. cbn [bind ch_count ch_size].
      replace (zlen content + 4 - 4) with (zlen content) by lia. unfold slice_to.
      destruct (Z.ltb_spec (zlen (content ++ rest)) (zlen content)); [rewrite zlen_app in *; pose proof (zlen_nonneg rest); lia|].
      cbn [bind]. rewrite ztake_app, zdrop_app by easy. now replace (2 * zlen m' / 2) with (zlen m') by lia.
  Qed.
  Lemma pairs_accepts KO md m content : wire_pairs (s_wire SK) (s_wire SV) m content ->
    Forall (fun kv => s_decodable SK (fst kv) /\ k_hashable KO (fst kv) = true /\ s_decodable SV (snd kv)) m ->
    forall acc rest, distinct_keys (k_eqb KO) (acc ++ m) ->
    iter_res (length m) (map_step KO (decode (s_dec SK) md) (decode (s_dec SV) md)) (content ++ rest, acc) = Ok (rest, acc ++ m).
  Proof.
    induction 1 as [|k v m bk bv bs Hk Hv Hm IH]; intros Hd acc rest Hdist.
    - cbn [length iter_res app]. now rewrite app_nil_r.
    - inversion Hd as [|? ? (D1 & Hh & D2) Hd']; subst. cbn [fst snd] in *.
      cbn [length iter_res map_step]. rewrite <- !app_assoc, (g_accepts SK GK md _ _ Hk D1). cbn [bind].
      rewrite (g_accepts SV GV md _ _ Hv D2). cbn [bind]. rewrite Hh. cbn [bind].
      rewrite (hm_insert_new _ _ _ _ m) by exact Hdist. rewrite IH; auto; now rewrite <- app_assoc.
  Qed.

  Lemma map_good KO : good (map_S KO SK SV).
  Proof.
    constructor.
    - intros m [Hm _]. apply (map_el (s_valid SK) (s_valid SV)); [apply (g_enc SK GK)|apply (g_enc SV GV)|].
      eapply Forall_impl; [|exact Hm]. intros kv (? & _ & ?). now split.
    - apply map_lawful; [apply (g_dec SK GK)|apply (g_dec SV GV)].
    - intros md inp fmt. apply (map_total_below KO (s_valid SK) (s_valid SV) (S (length inp))).
      + apply (g_dec SK GK).
      + apply (g_dec SV GV).
      + apply total_total_below, (g_total SK GK).
      + apply total_total_below, (g_total SV GV).
      + lia.
    - intros m [Hm _] He Hs. apply map_emits; auto. eapply Forall_impl; [|exact Hm]. intros kv (? & _ & ?). now split.
    - intros md m bs W [Hd Hk] rest. destruct (wire_map_read md m bs rest W) as (c & r & content & -> & _ & WP & HR).
      cbn [app]. rewrite decode_cons. change (s_dec (map_S KO SK SV)) with (map_dec KO (s_dec SK) (s_dec SV)). unfold map_dec.
      specialize (HR _ (fun b n => '(_, m) <- loop_n n (map_step KO (decode (s_dec SK) md) (decode (s_dec SV) md)) (b, []) ;; Ok m)).
      cbn beta in HR. rewrite loop_zlen in HR.
      pose proof (pairs_accepts KO md m content WP Hd [] [] Hk) as A. rewrite app_nil_r in A. unfold bytes in *. rewrite A in HR.
      cbn [bind app] in HR. etransitivity; [|exact HR].
      destruct (decode_map_header md (r ++ rest) c) as [[i h]| | |]; cbn [bind]; try reflexivity.
      destruct (slice_to i (ch_size h)); cbn [bind]; try reflexivity.
      destruct (loop_n _ _ _) as [[? ?]| | |]; reflexivity.
    - intros m bs W. destruct (wire_map_read Debug m bs [] W) as (c & r & content & -> & Hc & _).
      exists c, r. split; [reflexivity|]. cbn [s_codes map_S In]. destruct Hc; auto.
    - intros md inp fmt H. change (s_dec (map_S KO SK SV)) with (map_dec KO (s_dec SK) (s_dec SV)). unfold map_dec, decode_map_header. reject_codes H. reflexivity.
  Qed.
End Maps.

Lemma vecmap_iter_ok n s s' dk dv (PK : str -> Prop) (PV : variant -> Prop) :
  lawful PK dk -> lawful PV dv -> bytes_ok (fst s) -> Forall (both PK PV) (snd s) ->
  iter_res n (vecmap_step dk dv) s = Ok s' -> Forall (both PK PV) (snd s').
Proof.
  intros LK LV Hb Hm E.
  refine (proj2 (iter_res_inv (fun s => bytes_ok (fst s) /\ Forall (both PK PV) (snd s)) n _ s s' _ (conj Hb Hm) E)).
  clear - LK LV. intros [i m] [i' m'] [Hb Hm] E. cbn [fst snd] in *. unfold vecmap_step in E.
  apply bind_ok in E as [[i1 k] [E1 E2]]. apply bind_ok in E2 as [[i2 v] [E2 E3]]. injection E3 as <- <-.
  pose proof (lawful_bytes_ok _ _ _ _ _ LK E1 Hb) as Hb1. pose proof (lawful_bytes_ok _ _ _ _ _ LV E2 Hb1) as Hb2.
  destruct (LK _ _ _ E1) as [_ HK]. destruct (LV _ _ _ E2) as [_ HV].
  split; [exact Hb2|]. apply Forall_app. split; [exact Hm|]. constructor; [|constructor]. split; cbn [fst snd]; auto.
Qed.
Lemma vecmap_lawful : dec_lawful (Forall (both str_ok variant_ok)) vecmap_dec.
Proof.
  intros md fmt. unfold vecmap_dec.
  apply (lawful_bind' header_ok _ (fun inp => decode_map_header md inp fmt)
    (fun header inp1 => map_input <- slice_to inp1 (ch_size header) ;;
       '(_, m) <- loop_n (ch_count header / 2) (vecmap_step (decode str_dec md) (decode variant_dec md)) (map_input, []) ;;
       Ok (zdrop (ch_size header) inp1, m))).
  - apply map_header_lawful.
  - intros h.
    eapply lawful_ext; [|apply (slice_lawful (Forall (both str_ok variant_ok)) (ch_size h)
      (fun b => '(_, m) <- loop_n (ch_count h / 2) (vecmap_step (decode str_dec md) (decode variant_dec md)) (b, []) ;; Ok m))].
    + intros inp. cbn beta. destruct (slice_to inp (ch_size h)); cbn [bind]; try reflexivity.
      destruct (loop_n _ _ _) as [[? ?]| | |]; reflexivity.
    + intros b m Hb E. apply bind_ok in E as [[r m'] [E1 E2]]. injection E2 as <-.
      rewrite loop_n_iter in E1.
      apply (vecmap_iter_ok _ _ _ _ _ _ _ (decode_lawful _ _ _ str_lawful) (decode_lawful _ _ _ variant_lawful)) in E1; auto.
      constructor.
Qed.
Lemma decode_total {T} (d : dec T) md inp : total d -> decode d md inp <> Oof.
Proof. intros H. apply (decode_total_below (length inp)); [now apply total_total_below|lia]. Qed.
Lemma vecmap_total : total vecmap_dec.
Proof.
  intros md inp fmt E. unfold vecmap_dec in E. apply bind_oof in E as [E|([i h] & E1 & E)]; [now apply map_header_total in E|].
  apply bind_oof in E as [E|(s & _ & E)]; [unfold slice_to in E; destruct (_ <? _); discriminate|].
  apply bind_oof in E as [E|([j m] & _ & E)]; [|discriminate].
  rewrite loop_n_iter in E. revert E. apply (iter_res_oof (fun _ => True)); auto.
  intros [j acc] _ E. unfold vecmap_step in E. apply bind_oof in E as [E|([k x] & _ & E)].
  - apply (decode_total _ _ _ str_total E).
  - apply bind_oof in E as [E|([k' x'] & _ & E)]; [|discriminate]. apply (decode_total _ _ _ variant_total E).
Qed.
Lemma vecmap_good : good vecmap_S.
Proof.
  constructor.
  - intros m Hm. apply (map_el str_ok variant_ok); [apply str_el|apply variant_el|exact Hm].
  - exact vecmap_lawful.
  - exact vecmap_total.
  - intros m Hm He Hs. apply (map_emits str_S variant_S str_good variant_good); auto.
  - intros md m bs W Hd rest. destruct (wire_map_read str_S variant_S str_good variant_good md m bs rest W) as (c & r & content & -> & _ & WP & HR).
    cbn [app]. rewrite decode_cons. change (s_dec vecmap_S) with vecmap_dec. unfold vecmap_dec.
    specialize (HR _ (fun b n => '(_, m) <- loop_n n (vecmap_step (decode str_dec md) (decode variant_dec md)) (b, []) ;; Ok m)).
    cbn beta in HR. rewrite loop_zlen in HR.
    assert (A : forall acc rest, iter_res (length m) (vecmap_step (decode str_dec md) (decode variant_dec md)) (content ++ rest, acc) = Ok (rest, acc ++ m)).
    { clear - WP Hd. induction WP as [|k v m bk bv bs Hk Hv Hm IH]; intros acc rest.
      - cbn [length iter_res app]. now rewrite app_nil_r.
      - inversion Hd as [|? ? [D1 D2] Hd']; subst. cbn [fst snd] in *. cbn [length iter_res vecmap_step].
        rewrite <- !app_assoc. pose proof (g_accepts str_S str_good md _ _ Hk D1) as R1. rewrite R1. cbn [bind].
        pose proof (g_accepts variant_S variant_good md _ _ Hv D2) as R2. rewrite R2. cbn [bind].
        rewrite (IH Hd'). now rewrite <- app_assoc. }
    specialize (A [] []). rewrite app_nil_r in A. unfold bytes in *. rewrite A in HR.
    cbn [bind app] in HR. etransitivity; [|exact HR].
    destruct (decode_map_header md (r ++ rest) c) as [[i h]| | |]; cbn [bind]; try reflexivity.
    destruct (slice_to i (ch_size h)); cbn [bind]; try reflexivity.
    destruct (loop_n _ _ _) as [[? ?]| | |]; reflexivity.
  - intros m bs W. destruct (wire_map_read str_S variant_S str_good variant_good Debug m bs [] W) as (c & r & content & -> & Hc & _).
    exists c, r. split; [reflexivity|]. cbn [s_codes vecmap_S In]. destruct Hc; auto.
  - intros md inp fmt H. change (s_dec vecmap_S) with vecmap_dec. unfold vecmap_dec, decode_map_header. reject_codes H. reflexivity.
Qed.

(** ** Arrays *)
Section Arrays.
  Context {T : Type} (A : aenc T) (width : T -> Z) (S : tspec T) (G : good S).
  Context (HA : aenc_lawful (s_valid S) A) (Hcode : byte_ok (a_code A)).
  Context (Hwidth : forall x, s_valid S x -> a_size A x = width x /\ 1 <= width x).
  Context (Hemit : forall x, s_valid S x -> s_encodable S x -> a_size A x < 2 ^ 32 ->
    s_wire S (s_canon S x) (a_code A :: wbytes (a_enc A x))).

  Lemma total_width_size l : Forall (s_valid S) l -> array_encoded_size A l = total_width width l /\ zlen l <= total_width width l.
  Proof.
    induction 1 as [|x l Hx Hl [IH1 IH2]]; [cbn; lia|]. unfold array_encoded_size in *. cbn [zsum total_width]. rewrite zlen_cons.
    destruct (Hwidth x Hx). lia.
  Qed.
  Lemma bodies_emits l : Forall (s_valid S) l -> Forall (s_encodable S) l -> array_encoded_size A l < 2 ^ 32 ->
    Forall2 (fun x b => s_wire S x (a_code A :: b)) (map (s_canon S) l) (map (fun x => wbytes (a_enc A x)) l).
  Proof.
    induction l as [|x l IH]; intros Hv He Hs; [constructor|]. inversion Hv; subst. inversion He; subst.
    unfold array_encoded_size in *. cbn [zsum map] in *. destruct (Hwidth x) as [W1 W2]; [easy|].
    destruct (total_width_size l) as [W3 W4]; [easy|]. unfold array_encoded_size in W3. pose proof (zlen_nonneg l).
    constructor; [apply Hemit; auto; lia|]. apply IH; auto. lia.
  Qed.
  Lemma vec_emits l : Forall (s_valid S) l -> Forall (s_encodable S) l -> total_width width l <> 254 -> vec_size A l < 2 ^ 32 ->
    wire_array (s_wire S) (map (s_canon S) l) (wbytes (vec_enc A l)).
  Proof.
    intros Hv He Hw Hs. destruct (total_width_size l Hv) as [W1 W2]. unfold vec_size in Hs.
    assert (B := bodies_emits l Hv He ltac:(destruct (255 <? _) in Hs; lia)).
    destruct (vec_fits _ _ _ HA Hv) as [F _]. rewrite wbytes_flat_map, flat_map_concat_map in F. pose proof (zlen_nonneg l).
    unfold vec_enc. rewrite !wbytes_app, wbytes_flat_map, flat_map_concat_map.
    unfold byte_ok in Hcode.
    destruct (Z.ltb_spec 255 (array_encoded_size A l + 1)); wb.
    - change (FC_ARRAY32 mod 256) with 0xf0. rewrite (Z.mod_small (a_code A)) by lia. rewrite <- app_assoc. rewrite <- F at 1.
      rewrite <- (zlen_map (s_canon S) l). apply WA_32; [exact Hcode|exact B|lia|rewrite zlen_map; lia].
    - change (FC_ARRAY8 mod 256) with 0xe0. rewrite (Z.mod_small (a_code A)) by lia.
      rewrite (Z.mod_small (_ + 2)) by lia. rewrite (Z.mod_small (zlen l)) by lia. rewrite <- F at 1.
      rewrite <- (zlen_map (s_canon S) l). apply WA_8; [exact Hcode|exact B|lia|rewrite zlen_map; lia].
  Qed.
  Lemma bodies_accepts md c l bodies : Forall2 (fun x b => s_wire S x (c :: b)) l bodies -> Forall (s_decodable S) l ->
    forall acc rest, iter_res (length l) (vec_step (fun i => s_dec S md i c)) (concat bodies ++ rest, acc) = Ok (rest, acc ++ l).
  Proof.
    induction 1 as [|x b l bodies Hx Hl IH]; intros Hd acc rest; [cbn [length iter_res concat app]; now rewrite app_nil_r|].
    inversion Hd; subst. cbn [length iter_res vec_step concat]. rewrite <- app_assoc.
    pose proof (g_accepts S G md _ _ Hx ltac:(assumption) (concat bodies ++ rest)) as D. cbn [app] in D. rewrite decode_cons in D.
    rewrite D. cbn [bind]. rewrite IH by easy. now rewrite <- app_assoc.
  Qed.
  Lemma vec_accepts md l bs : wire_array (s_wire S) l bs -> Forall (s_decodable S) l -> decodes md (vec_dec (s_dec S)) bs l.
  Proof.
    intros W Hd. destruct W as [c l bodies Hc H Hs Hn|c l bodies Hc H Hs Hn]; apply decodes_cons; intros rest;
      unfold vec_dec, decode_array_header; pose proof (zlen_nonneg (concat bodies)); pose proof (zlen_nonneg l).
    - cbn [FC_ARRAY8 Z.eqb Pos.eqb app]. rewrite compound8_read by lia. cbn [bind ch_count]. rewrite loop_zlen.
      now apply bodies_accepts.
    - cbn [FC_ARRAY8 FC_ARRAY32 Z.eqb Pos.eqb]. rewrite <- !app_assoc. rewrite compound32_read by lia. cbn [bind ch_count app].
      rewrite loop_zlen. now apply bodies_accepts.
  Qed.
  Lemma vec_total d : total d -> total (@vec_dec T d).
  Proof.
    intros H md inp fmt E. unfold vec_dec in E. apply bind_oof in E as [E|([i h] & _ & E)]; [now apply array_header_total in E|].
    destruct i as [|b r]; [discriminate|]. rewrite loop_n_iter in E. revert E. apply (iter_res_oof (fun _ => True)); auto.
    intros [j acc] _ E. unfold vec_step in E. apply bind_oof in E as [E|([k x] & _ & E)]; [now apply H in E|discriminate].
  Qed.
  Lemma wire_array_codes l bs : wire_array (s_wire S) l bs -> exists c r, bs = c :: r /\ (c = 0xe0 \/ c = 0xf0).
  Proof. intros []; eexists _, _; (split; [reflexivity|]); auto. Qed.

  Lemma vec_good : good (vec_S A width S).
  Proof.
    constructor.
    - now apply vec_el.
    - apply vec_lawful. apply (g_dec S G).
    - apply vec_total. apply (g_total S G).
    - intros l Hv [He Hw] Hs. now apply vec_emits.
    - intros md l bs W Hd. now apply vec_accepts.
    - intros l bs W. destruct (wire_array_codes l bs W) as (c & r & -> & Hc). exists c, r. split; [reflexivity|].
      cbn. destruct Hc; auto.
    - intros md inp fmt H. change (s_dec (vec_S A width S)) with (vec_dec (s_dec S)). unfold vec_dec, decode_array_header.
      reject_codes H. reflexivity.
  Qed.
  Lemma multiple_good : ~ In 0xe0 (s_codes S) -> ~ In 0xf0 (s_codes S) -> good (multiple_S A width S).
  Proof.
    intros H8 H32. constructor.
    - apply multiple_el; [apply (g_enc S G)|exact HA].
    - apply multiple_lawful. apply (g_dec S G).
    - intros md inp fmt E. change (s_dec (multiple_S A width S)) with (multiple_dec (s_dec S)) in E. unfold multiple_dec in E.
      destruct (_ || _); [now apply (vec_total _ (g_total S G)) in E|].
      apply bind_oof in E as [E|([i x] & _ & E)]; [now apply (g_total S G) in E|discriminate].
    - intros l Hv [He Hw] Hs. cbn [s_wire multiple_S]. unfold s_size, s_bytes in *.
      cbn [s_codec multiple_S multiple_C c_E multiple_E e_size e_enc s_canon] in *.
      destruct l as [|x [|y l]].
      + left. apply vec_emits; auto. now destruct Hw.
      + right. exists (s_canon S x). split; [reflexivity|]. inversion Hv; subst. inversion He; subst. now apply (g_emits S G).
      + left. apply vec_emits; auto. destruct Hw as [Hw|Hw]; [|exact Hw].
        rewrite !zlen_cons in Hw. pose proof (zlen_nonneg l). lia.
    - intros md l bs [W|(x & -> & W)] Hd.
      + intros rest. destruct (wire_array_codes l bs W) as (c & r & -> & Hc). cbn [app]. rewrite decode_cons.
        change (s_dec (multiple_S A width S)) with (multiple_dec (s_dec S)). unfold multiple_dec.
        replace ((c =? FC_ARRAY8) || (c =? FC_ARRAY32)) with true by (destruct Hc as [->| ->]; reflexivity).
        pose proof (vec_accepts md l _ W Hd rest) as D. cbn [app] in D. now rewrite decode_cons in D.
      + destruct (g_codes S G _ _ W) as (c & r & -> & Hc). apply decodes_cons. intros rest.
        change (s_dec (multiple_S A width S)) with (multiple_dec (s_dec S)). unfold multiple_dec.
        destruct (Z.eqb_spec c FC_ARRAY8) as [->|_]; [contradiction|]. destruct (Z.eqb_spec c FC_ARRAY32) as [->|_]; [contradiction|].
        cbn [orb]. inversion Hd; subst. pose proof (g_accepts S G md _ _ W ltac:(assumption) rest) as D. cbn [app] in D.
        rewrite decode_cons in D. now rewrite D.
    - intros l bs [W|(x & -> & W)].
      + destruct (wire_array_codes l bs W) as (c & r & -> & Hc). exists c, r. split; [reflexivity|].
        cbn. destruct Hc; auto.
      + destruct (g_codes S G _ _ W) as (c & r & -> & Hc). exists c, r. split; [reflexivity|]. cbn. auto.
    - intros md inp fmt H. change (s_dec (multiple_S A width S)) with (multiple_dec (s_dec S)). unfold multiple_dec.
      cbn [s_codes multiple_S In] in H.
      destruct (Z.eqb_spec fmt FC_ARRAY8) as [->|_]; [exfalso; auto|]. destruct (Z.eqb_spec fmt FC_ARRAY32) as [->|_]; [exfalso; auto|].
      cbn [orb]. rewrite (g_reject S G) by auto. reflexivity.
  Qed.
End Arrays.

Lemma symbol_array_emits x : symbol_ok x -> a_size symbol_A x < 2 ^ 32 ->
  s_wire symbol_S (canon_str x) (0xb3 :: wbytes (a_enc symbol_A x)).
Proof.
  intros Hx Hs. exists (str_bytes x). split; [reflexivity|]. split; [now apply str_bytes_ok|].
  cbn [symbol_A a_size a_enc] in *. rewrite str_len_bytes in *. wb. rewrite ?app_nil_r. apply WV_32. lia.
Qed.
Lemma symbols_good : good symbols_S.
Proof.
  apply multiple_good.
  - exact symbol_good.
  - exact symbol_al.
  - cbn. unfold byte_ok, FC_SYMBOL32. lia.
  - intros x Hx. cbn [symbol_A a_size]. rewrite str_len_bytes. pose proof (zlen_nonneg (str_bytes x)). lia.
  - intros x Hx _ Hs. now apply symbol_array_emits.
  - cbv. intros [H|[H|[]]]; discriminate.
  - cbv. intros [H|[H|[]]]; discriminate.
Qed.

(** ** Enumerations *)
Lemma enum_good {T R B} (C : codec T) (dB : dec R) (tryf : R -> res T) (rep : B -> R) (P : R -> Prop) codes (w : B -> bytes -> Prop) (table : list (T * B)) :
  c_D C = enum_dec dB tryf -> dec_lawful P dB -> total dB -> (forall r, tryf r <> Oof) ->
  (forall md b bs, w b bs -> decodes md dB bs (rep b)) ->
  (forall b bs, w b bs -> exists c r, bs = c :: r /\ In c codes) ->
  (forall md inp fmt, ~ In fmt codes -> dB md inp fmt = Err (EInvalidFormatCode fmt)) ->
  (forall x b, In (x, b) table -> tryf (rep b) = Ok x) ->
  enc_lawful always (c_E C) ->
  (forall x, exists b, In (x, b) table /\ w b (wbytes (e_enc (c_E C) x))) ->
  good (enum_S C codes w table).
Proof.
  intros HD HL HT HTf HA HC HR HTab HE HEm. constructor.
  - exact HE.
  - unfold s_dec. cbn [s_codec enum_S s_valid]. rewrite HD. intros md fmt. unfold enum_dec.
    apply (lawful_post P always tryf); [apply HL|easy].
  - intros md inp fmt E. unfold s_dec in E. cbn [s_codec enum_S] in E. rewrite HD in E. unfold enum_dec in E.
    apply bind_oof in E as [E|([i x] & _ & E)]; [now apply HT in E|].
    apply bind_oof in E as [E|(y & _ & E)]; [now apply HTf in E|discriminate].
  - intros x _ _ _. destruct (HEm x) as (b & H1 & H2). now exists b.
  - intros md x bs (b & Hin & W) _ rest. unfold s_dec, decode. cbn [s_codec enum_S].
    pose proof (HA md b bs W rest) as D. unfold decode in D. destruct (HC b bs W) as (c & r & -> & _).
    unfold decode_format_code in *. cbn [app] in *. rewrite read_u8_cons in *. cbn [bind] in *. rewrite HD. unfold enum_dec.
    rewrite D. cbn [bind]. rewrite (HTab x b Hin). reflexivity.
  - intros x bs (b & _ & W). now apply HC in W.
  - intros md inp fmt H. unfold s_dec. cbn [s_codec enum_S]. rewrite HD. unfold enum_dec. now rewrite HR.
Qed.

Lemma ascii_text b : utf8_valid b = true -> forallb (fun x => (0 <=? x) && (x <? 256)) b = true -> is_utf8 b.
Proof.
  intros H1 H2. apply utf8_valid_spec; [|exact H1]. rewrite forallb_forall in H2. apply Forall_forall. intros x Hx.
  apply H2 in Hx. unfold byte_ok. lia.
Qed.
Lemma static_symbol_wire t : utf8_valid (s2b t) = true -> forallb (fun x => (0 <=? x) && (x <? 256)) (s2b t) = true ->
  zlen (s2b t) < 2 ^ 32 -> wire_name t (wbytes (static_symbol_enc (s2b t))).
Proof. intros H1 H2 H3. apply static_symbol_emits; [now apply ascii_text|exact H3]. Qed.
Lemma symbol_codes_wire (b : bytes) bs : wire_symbol b bs -> exists c r, bs = c :: r /\ In c symbol_codes.
Proof. intros [_ H]. now apply wire_var_codes in H. Qed.
Lemma static_symbol_fits (t : string) n : forallb (fun x => (0 <=? x) && (x <? 256)) (s2b t) = true -> zlen (s2b t) = n -> n < 256 ->
  enc_fits (n + 2) (static_symbol_enc (s2b t)).
Proof.
  intros H <- Hn. rewrite Z.add_comm. eapply fits_eq; [|apply var_fits].
  - unfold var_size. destruct (Z.ltb_spec 255 (zlen (s2b t))); lia.
  - rewrite forallb_forall in H. apply Forall_forall. intros x Hx. apply H in Hx. unfold byte_ok. lia.
Qed.

(** The obligations of [enum_good] for symbols. *)
Ltac symbol_enum tf :=
  apply (enum_good _ symbol_dec tf (fun t => SByteStr (s2b t)) symbol_ok);
  [ reflexivity | exact symbol_lawful | exact symbol_total
  | intros r E; unfold tf in E; repeat match type of E with (if ?c then _ else _) = _ => destruct c; try discriminate E end
  | intros md b bs W; now apply symbol_accepts
  | intros b bs W; now apply symbol_codes_wire in W
  | exact (g_reject symbol_S symbol_good)
  | intros x b Hin; cbn [In] in Hin; repeat (destruct Hin as [[= <- <-]|Hin]; [vm_compute; reflexivity|]); destruct Hin
  | intros x _; split; [destruct x; (apply static_symbol_fits; [vm_compute; reflexivity|vm_compute; reflexivity|lia])|destruct x; vm_compute; discriminate]
  | intros x; destruct x; eexists; (split; [find_in|apply static_symbol_wire; vm_compute; reflexivity]) ].
Lemma terminus_expiry_policy_good : good terminus_expiry_policy_S.
Proof. symbol_enum terminus_expiry_policy_try_from. Qed.
Lemma amqp_error_good : good amqp_error_S.
Proof. symbol_enum amqp_error_try_from. Qed.
Lemma connection_error_good : good connection_error_S.
Proof. symbol_enum connection_error_try_from. Qed.
Lemma session_error_good : good session_error_S.
Proof. symbol_enum session_error_try_from. Qed.
Lemma link_error_good : good link_error_S.
Proof. symbol_enum link_error_try_from. Qed.

Ltac plain_enum tf S G :=
  apply (enum_good _ (s_dec S) tf (fun b => b) (s_valid S));
  [ reflexivity | exact (g_dec S G) | exact (g_total S G)
  | intros r E; unfold tf in E; repeat match type of E with (if ?c then _ else _) = _ => destruct c; try discriminate E end; try destruct r; discriminate E
  | intros md b bs W; now apply (g_accepts S G)
  | exact (g_codes S G)
  | exact (g_reject S G)
  | intros x b Hin; cbn [In] in Hin; repeat (destruct Hin as [[= <- <-]|Hin]; [vm_compute; reflexivity|]); destruct Hin
  | intros x _; destruct x; apply (g_enc S G); cbv; intuition congruence
  | intros x; destruct x; eexists; (split; [find_in|apply (g_emits S G); [cbv; intuition congruence|exact I|vm_compute; reflexivity]]) ].
Lemma role_good : good role_S.
Proof. plain_enum role_try_from bool_S bool_good. Qed.
Lemma sender_settle_mode_good : good sender_settle_mode_S.
Proof. plain_enum sender_settle_mode_try_from u8_S u8_good. Qed.
Lemma receiver_settle_mode_good : good receiver_settle_mode_S.
Proof. plain_enum receiver_settle_mode_try_from u8_S u8_good. Qed.
Lemma sasl_code_good : good sasl_code_S.
Proof. plain_enum sasl_code_try_from u8_S u8_good. Qed.
Lemma terminus_durability_good : good terminus_durability_S.
Proof. plain_enum terminus_durability_try_from u32_S u32_good. Qed.

(** ** Open enumerations *)
Lemma open_enum_good {T} (C : codec T) (of_symbol : symbol -> T) (table : list (T * string)) (custom : symbol -> T)
    (get_custom : T -> option symbol) :
  c_D C = (fun md inp fmt => '(i, s) <- symbol_dec md inp fmt ;; Ok (i, of_symbol s)) ->
  (forall b, of_symbol (SByteStr b) = match lookup_name b table with Some y => y | None => custom (SByteStr b) end) ->
  (forall s, symbol_ok s -> opt_prop symbol_ok (get_custom (of_symbol s))) ->
  (forall x s, get_custom x = Some s -> e_size (c_E C) x = symbol_size s /\ e_enc (c_E C) x = symbol_enc s) ->
  (forall x, get_custom x = None -> exists t, lookup_name (s2b t) table = Some x /\
     wire_name t (wbytes (e_enc (c_E C) x)) /\ enc_fits (e_size (c_E C) x) (e_enc (c_E C) x) /\ 1 <= e_size (c_E C) x) ->
  good (open_enum_S C table custom get_custom).
Proof.
  intros HD HO HV HC HN. constructor.
  - intros x Hx. cbn [s_codec open_enum_S s_valid] in *. destruct (get_custom x) as [s|] eqn:E.
    + destruct (HC x s E) as [E1 E2]. rewrite E1, E2. now apply symbol_el.
    + destruct (HN x E) as (t & _ & _ & H). exact H.
  - unfold s_dec. cbn [s_codec open_enum_S s_valid]. rewrite HD. intros md fmt.
    apply (lawful_map symbol_ok (fun x => opt_prop symbol_ok (get_custom x)) of_symbol); [apply symbol_lawful|exact HV].
  - intros md inp fmt E. unfold s_dec in E. cbn [s_codec open_enum_S] in E. rewrite HD in E.
    apply bind_oof in E as [E|([i x] & _ & E)]; [now apply symbol_total in E|discriminate].
  - intros x Hx _ Hs. cbn [s_wire s_canon open_enum_S s_valid] in *. unfold s_size, s_bytes in *. cbn [s_codec open_enum_S] in *.
    destruct (get_custom x) as [s|] eqn:E.
    + destruct (HC x s E) as [E1 E2]. rewrite E1 in Hs. rewrite E2. exists (str_bytes s). split; [|reflexivity].
      apply symbol_emits; [exact Hx|]. now apply var_size_bound.
    + destruct (HN x E) as (t & E1 & W & _). exists (s2b t). split; [exact W|]. now rewrite E1.
  - intros md x bs (b & W & ->) _ rest. unfold s_dec, decode. cbn [s_codec open_enum_S].
    pose proof (symbol_accepts md b bs W rest) as D. unfold decode in D. destruct (symbol_codes_wire b bs W) as (c & r & -> & _).
    unfold decode_format_code in *. cbn [app] in *. rewrite read_u8_cons in *. cbn [bind] in *. rewrite HD.
    rewrite D. cbn [bind]. now rewrite HO.
  - intros x bs (b & W & _). now apply symbol_codes_wire in W.
  - intros md inp fmt H. unfold s_dec. cbn [s_codec open_enum_S]. rewrite HD.
    now rewrite (g_reject symbol_S symbol_good).
Qed.
Ltac if_chain := repeat match goal with |- context [bytes_eqb ?b ?t] => destruct (bytes_eqb b t); [reflexivity|] end; try reflexivity.
Lemma condition_of_text b : error_condition_of_symbol (SByteStr b) =
  match lookup_name b condition_table with Some y => y | None => EC_Custom (SByteStr b) end.
Proof.
  unfold condition_table, amqp_error_table, connection_error_table, session_error_table, link_error_table.
  cbn [map app fst snd lookup_name].
  unfold error_condition_of_symbol, amqp_error_try_from, connection_error_try_from, session_error_try_from, link_error_try_from, sym_is.
  cbn [str_bytes]. if_chain.
Qed.
Lemma error_condition_good : good error_condition_S.
Proof.
  apply (open_enum_good _ error_condition_of_symbol).
  - reflexivity.
  - exact condition_of_text.
  - intros s Hs. unfold error_condition_of_symbol.
    destruct (amqp_error_try_from s); [exact I| | |]; (destruct (connection_error_try_from s); [exact I| | |]);
      (destruct (session_error_try_from s); [exact I| | |]); (destruct (link_error_try_from s); [exact I| | |]); exact Hs.
  - intros [e|e|e|e|s'] s; cbn [condition_custom]; intros [= <-]. auto.
  - intros [e|e|e|e|s'] H; try discriminate H; destruct e; eexists;
      (split; [|split; [apply static_symbol_wire; vm_compute; reflexivity
                       |split; [apply static_symbol_fits; [vm_compute; reflexivity|vm_compute; reflexivity|lia]|vm_compute; discriminate]]]);
      vm_compute; reflexivity.
Qed.
Lemma distribution_mode_good : good distribution_mode_S.
Proof.
  apply (open_enum_good _ distribution_mode_of_symbol).
  - reflexivity.
  - intros b. unfold distribution_mode_of_symbol, sym_is, distribution_table. cbn [str_bytes lookup_name]. if_chain.
  - intros s Hs. unfold distribution_mode_of_symbol. destruct (sym_is s "move"); [exact I|]. destruct (sym_is s "copy"); [exact I|exact Hs].
  - intros [| |s'] s; cbn [distribution_custom]; intros [= <-]. auto.
  - intros [| |s'] H; try discriminate H; eexists;
      (split; [|split; [apply static_symbol_wire; vm_compute; reflexivity
                       |split; [apply (static_symbol_fits _ 4); [vm_compute; reflexivity|vm_compute; reflexivity|lia]|vm_compute; discriminate]]]);
      vm_compute; reflexivity.
Qed.

(** ** [MessageId] *)
Lemma message_id_good : good message_id_S.
Proof.
  constructor.
  - intros [v|u|b|s] H; [now apply (g_enc u64_S u64_good)|now apply (g_enc uuid_S uuid_good)|now apply (g_enc bin_S bin_good)|now apply (g_enc bstr_S bstr_good)].
  - intros md fmt. cbn [s_dec s_codec message_id_S message_id_C c_D]. unfold message_id_dec. repeat apply lawful_if; [| | | |apply lawful_err].
    + apply (lawful_map u64_ok message_id_ok MIUlong); [apply u64_lawful|auto].
    + apply (lawful_map uuid_ok message_id_ok MIUuid); [apply uuid_lawful|auto].
    + apply (lawful_map bytes_ok message_id_ok MIBinary); [apply bin_lawful|auto].
    + apply (lawful_map text_ok message_id_ok MIString); [apply bstr_lawful|auto].
  - intros md inp fmt E. cbn [s_dec s_codec message_id_S message_id_C c_D] in E. unfold message_id_dec in E.
    repeat match type of E with (if ?c then _ else _) = _ => destruct c end; try discriminate; apply map_res_oof in E.
    + now apply u64_total in E.
    + now apply uuid_total in E.
    + now apply bin_total in E.
    + now apply bstr_total in E.
  - intros [v|u|b|s] H _ Hs; [now apply (g_emits u64_S u64_good)|now apply (g_emits uuid_S uuid_good)|now apply (g_emits bin_S bin_good)|now apply (g_emits bstr_S bstr_good)].
  - assert (K : forall md T (f : T -> message_id) (S : tspec T) c r v, good S -> s_wire S v (c :: r) -> s_decodable S v ->
      (forall inp, message_id_dec md inp c = map_res f (s_dec S md inp c)) -> decodes md message_id_dec (c :: r) (f v)).
    { intros md T f S c r v G W Hd H. apply decodes_cons. intros rest. rewrite H.
      pose proof (g_accepts S G md _ _ W Hd rest) as D. cbn [app] in D. rewrite decode_cons in D. now rewrite D. }
    intros md [v|u|b|s] bs W _.
    + pose proof W as W'. destruct W; apply (K md Z MIUlong u64_S); try exact u64_good; try exact W'; try exact I; reflexivity.
    + pose proof W as W'. destruct W as [_ ->]. apply (K md bytes MIUuid uuid_S); try exact uuid_good; try exact W'; try exact I; reflexivity.
    + pose proof W as W'. destruct W as [_ W]; destruct W; apply (K md bytes MIBinary bin_S); try exact bin_good; try exact W'; try exact I; reflexivity.
    + pose proof W as W'. destruct W as [_ W]; destruct W; apply (K md bytes MIString bstr_S); try exact bstr_good; try exact W'; try exact I; reflexivity.
  - intros [v|u|b|s] bs W; cbn [s_wire message_id_S wire_message_id] in W.
    + destruct W; eexists _, _; (split; [reflexivity|find_in]).
    + destruct W as [_ ->]; eexists _, _; (split; [reflexivity|find_in]).
    + destruct W as [_ W]; destruct W; eexists _, _; (split; [reflexivity|find_in]).
    + destruct W as [_ W]; destruct W; eexists _, _; (split; [reflexivity|find_in]).
  - intros md inp fmt H. change (s_dec message_id_S) with message_id_dec. unfold message_id_dec. reject_codes H. reflexivity.
Qed.
Lemma vmap_good : good vmap_S. Proof. apply map_good; apply variant_good. Qed.
Lemma string_variant_map_good : good string_variant_map_S. Proof. apply map_good; [apply str_good|apply variant_good]. Qed.
Lemma fields_good : good fields_S. Proof. apply map_good; [apply symbol_good|apply variant_good]. Qed.
Lemma filter_set_good : good filter_set_S.
Proof. apply map_good; [apply symbol_good|]. apply option_good; [apply bstr_good|]. cbv. intros [H|[H|[]]]; discriminate. Qed.
