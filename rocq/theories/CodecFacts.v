(** Facts behind the claims about single values. *)

From Coq Require Import String.
From Verif Require Import Definitions BaseFacts Utf8Spec Utf8Facts Valid Wire PrimFacts DecLaws EncLaws VariantFacts TypeSpec TypeFacts
  CompositeSpec CompositeFacts AllTypes AllTypesFacts CodecSpec EqFacts.
From Coq Require Import ZifyBool.
Ltac Zify.zify_post_hook ::= Z.div_mod_to_equations.
Open Scope Z_scope.

Lemma primitive_type {T} (S : tspec T) R : primitive S R -> amqp_type S.
Proof. intros []; constructor. Qed.
Lemma primitive_encodable {T} (S : tspec T) R v : primitive S R -> s_encodable S v.
Proof. intros P. revert v. destruct P; intros v; exact I. Qed.
Lemma primitive_equal {T} (S : tspec T) R v : primitive S R -> R v (s_canon S v).
Proof. intros P. revert v. destruct P; intros v; try reflexivity; cbn [s_canon]; apply str_eqb_spec; reflexivity. Qed.
Lemma primitive_round_trip {T} (S : tspec T) R : primitive S R -> forall md v rest,
  s_valid S v -> s_size S v < 2 ^ 32 -> s_decodable S (s_canon S v) ->
  exists w, decode (s_dec S) md (s_bytes S v ++ rest) = Ok (rest, w) /\ R v w.
Proof.
  intros P md v rest H1 H2 H3. exists (s_canon S v). split; [|now apply primitive_equal].
  apply good_round_trip; auto; [now apply type_good, (primitive_type S R)|now apply (primitive_encodable S R)].
Qed.
Lemma type_size {T} (S : tspec T) : amqp_type S -> forall v, s_valid S v -> s_size S v = zlen (s_bytes S v).
Proof. intros G v H. apply type_good in G. destruct (g_enc S G v H) as [[E _] _]. symmetry. exact E. Qed.
Lemma type_bytes {T} (S : tspec T) : amqp_type S -> forall v, s_valid S v -> bytes_ok (s_bytes S v) /\ s_bytes S v <> [].
Proof.
  intros G v H. apply type_good in G. destruct (g_enc S G v H) as [[E B] P]. split; [exact B|].
  intros N. unfold s_bytes in N. rewrite N in E. cbn in E. lia.
Qed.
Lemma type_emits {T} (S : tspec T) : amqp_type S -> forall v, s_valid S v -> s_encodable S v -> s_size S v < 2 ^ 32 ->
  s_wire S (s_canon S v) (s_bytes S v).
Proof. intros G. apply (g_emits S). now apply type_good. Qed.
Lemma type_accepts {T} (S : tspec T) : amqp_type S -> forall md v bs rest, s_wire S v bs -> s_decodable S v ->
  decode (s_dec S) md (bs ++ rest) = Ok (rest, v).
Proof. intros G md v bs rest H1 H2. apply (g_accepts S); auto. now apply type_good. Qed.
Lemma type_round_trip {T} (S : tspec T) : amqp_type S -> forall md v rest, s_valid S v -> s_encodable S v -> s_size S v < 2 ^ 32 ->
  s_decodable S (s_canon S v) -> decode (s_dec S) md (s_bytes S v ++ rest) = Ok (rest, s_canon S v).
Proof. intros G md v rest H1 H2 H3 H4. now apply good_round_trip; [apply type_good|..]. Qed.
Lemma type_lawful {T} (S : tspec T) md : amqp_type S -> lawful (s_valid S) (decode (s_dec S) md).
Proof. intros G. apply decode_lawful, g_dec. now apply type_good. Qed.
Lemma decode_nonempty {T} (d : dec T) md inp rest v : dec_lawful any d -> decode d md inp = Ok (rest, v) ->
  zlen rest < zlen inp.
Proof.
  intros L E. destruct inp as [|c inp]; [discriminate|]. rewrite decode_cons in E.
  pose proof (lawful_len any (fun i => d md i c) inp rest v (L md c) E). rewrite zlen_cons. lia.
Qed.
Lemma dec_lawful_any {T} (P : T -> Prop) (d : dec T) : dec_lawful P d -> dec_lawful any d.
Proof. intros L md fmt. apply (lawful_weaken P); [easy|apply L]. Qed.
Lemma type_prefix {T} (S : tspec T) : amqp_type S -> forall md inp rest v,
  decode (s_dec S) md inp = Ok (rest, v) -> exists p, inp = p ++ rest /\ p <> [].
Proof.
  intros G md inp rest v E. destruct (type_lawful S md G _ _ _ E) as [(p & -> & _) _]. exists p. split; [easy|].
  intros ->. apply decode_nonempty in E; [cbn [app] in E; lia|]. apply (dec_lawful_any (s_valid S)), g_dec. now apply type_good.
Qed.
Lemma type_prefix_alone {T} (S : tspec T) : amqp_type S -> forall md inp rest v,
  decode (s_dec S) md inp = Ok (rest, v) ->
  exists p, inp = p ++ rest /\ p <> [] /\ forall other, decode (s_dec S) md (p ++ other) = Ok (other, v).
Proof.
  intros G md inp rest v E. destruct (type_lawful S md G _ _ _ E) as [(p & -> & H) _]. exists p. split; [easy|]. split; [|exact H].
  intros ->. apply decode_nonempty in E; [cbn [app] in E; lia|]. apply (dec_lawful_any (s_valid S)), g_dec. now apply type_good.
Qed.
Lemma type_extend {T} (S : tspec T) : amqp_type S -> forall md inp rest v more,
  decode (s_dec S) md inp = Ok (rest, v) -> decode (s_dec S) md (inp ++ more) = Ok (rest ++ more, v).
Proof.
  intros G md inp rest v more E. destruct (type_lawful S md G _ _ _ E) as [(p & -> & H) _].
  rewrite <- app_assoc. apply H.
Qed.
Lemma type_no_prefix {T} (S : tspec T) : amqp_type S -> forall md a b rest v w,
  decode (s_dec S) md (a ++ b) = Ok ([], v) -> decode (s_dec S) md a = Ok (rest, w) -> b = [].
Proof. intros G md a b rest v w. apply (lawful_prefix_free (s_valid S)). now apply type_lawful. Qed.
Lemma type_valid {T} (S : tspec T) : amqp_type S -> forall md inp rest v,
  bytes_ok inp -> decode (s_dec S) md inp = Ok (rest, v) -> s_valid S v.
Proof. intros G md inp rest v Hb E. destruct (type_lawful S md G _ _ _ E) as [_ H]. auto. Qed.
Lemma type_total {T} (S : tspec T) : amqp_type S -> forall md inp, decode (s_dec S) md inp <> Oof.
Proof.
  intros G md [|c inp]; [discriminate|]. rewrite decode_cons. apply (g_total S). now apply type_good.
Qed.
Lemma type_reject {T} (S : tspec T) : amqp_type S -> forall md c r,
  ~ In c (s_codes S) -> decode (s_dec S) md (c :: r) = Err (EInvalidFormatCode c).
Proof. intros G md c r H. rewrite decode_cons. apply (g_reject S); auto. now apply type_good. Qed.
Lemma type_injective {T} (S : tspec T) : amqp_type S -> forall v w,
  s_valid S v -> s_encodable S v -> s_size S v < 2 ^ 32 -> s_decodable S (s_canon S v) ->
  s_valid S w -> s_encodable S w -> s_size S w < 2 ^ 32 -> s_decodable S (s_canon S w) ->
  forall ex ey, s_bytes S v ++ ex = s_bytes S w ++ ey -> s_canon S v = s_canon S w /\ ex = ey.
Proof.
  intros G v w H1 H2 H3 H4 H5 H6 H7 H8 ex ey E.
  pose proof (type_round_trip S G Release v ex H1 H2 H3 H4) as E1.
  pose proof (type_round_trip S G Release w ey H5 H6 H7 H8) as E2. rewrite E, E2 in E1. now injection E1.
Qed.

(** Shortest form. *)
Lemma primitive_shortest {T} (S : tspec T) R : primitive S R -> forall v bs,
  s_valid S v -> s_wire S (s_canon S v) bs -> zlen (s_bytes S v) <= zlen bs.
Proof.
  intros P v bs Hv H. rewrite <- type_size by (try apply (primitive_type S R); assumption). revert v bs Hv H. destruct P.
  all: cbn [s_wire s_canon s_valid]; unfold same, s_size; cbn [s_codec].
  - intros v bs _ H. change (bool_size v <= zlen bs). destruct H; unfold bool_size; rewrite ?zlen_cons, ?zlen_nil; lia.
  - intros v bs _ [_ ->]. cbn. lia.
  - intros v bs _ [_ ->]. cbn. lia.
  - intros v bs _ H. apply (proj1 wire_minimal (VUint v)); [now constructor|exact I].
  - intros v bs _ H. apply (proj1 wire_minimal (VUlong v)); [now constructor|exact I].
  - intros v bs _ [_ ->]. cbn. lia.
  - intros v bs _ [_ ->]. cbn. lia.
  - intros v bs _ H. apply (proj1 wire_minimal (VInt v)); [now constructor|exact I].
  - intros v bs _ H. apply (proj1 wire_minimal (VLong v)); [now constructor|exact I].
  - intros v bs _ [_ ->]. cbn. lia.
  - intros v bs _ [_ ->]. cbn. lia.
  - intros v bs _ [_ ->]. cbn. lia.
  - intros v bs _ (ms & _ & _ & ->). cbn. lia.
  - intros v bs _ [[_ H] ->]. rewrite zlen_cons, H. cbn. lia.
  - intros v bs _ H. apply (proj1 wire_minimal (VBinary v)); [now constructor|exact I].
  - intros v bs _ H. apply (proj1 wire_minimal (VString (SByteStr v))); [now constructor|exact I].
  - intros v bs _ (b & E & H). injection E as <-.
    pose proof (proj1 wire_minimal (VString (SByteStr (str_bytes v))) bs ltac:(now constructor) I) as M.
    destruct v; exact M.
  - intros v bs _ (b & E & H). injection E as <-.
    pose proof (proj1 wire_minimal (VSymbol (SByteStr (str_bytes v))) bs ltac:(now constructor) I) as M.
    destruct v; exact M.
Qed.
Lemma variant_size_canon v : variant_ok v -> variant_size (canon v) = variant_size v.
Proof.
  induction v using variant_ind'; cbn [canon variant_size variant_ok]; intros Hok; try reflexivity.
  - now destruct s.
  - now destruct s.
  - unfold list_size, list_encoded_size. apply all_prop_Forall in Hok.
    assert (zsum variant_size (map canon l) = zsum variant_size l) as ->; [|reflexivity].
    induction l as [|x l IH]; [reflexivity|]. inversion H; inversion Hok; subst. cbn [map zsum]. rewrite IH, H2; auto.
  - destruct Hok as [Hok _]. apply (all_prop_pair _ _ (fun k w => variant_ok k /\ variant_hashable k = true /\ variant_ok w)) in Hok; [|easy].
    unfold map_size. set (m' := map _ m).
    assert (map_encoded_size variant_size variant_size m' = map_encoded_size variant_size variant_size m) as ->; [|reflexivity].
    subst m'. unfold map_encoded_size. induction m as [|[k w] m IH]; [reflexivity|]. inversion H; inversion Hok; subst. cbn [map zsum fst snd] in *.
    rewrite IH by auto. destruct H2 as [-> ->]; intuition.
  - rewrite IHv by easy. f_equal. now destruct d as [|[]].
Qed.
Lemma variant_shortest v bs : variant_ok v -> list_free v -> wire (canon v) bs -> zlen (wbytes (variant_enc v)) <= zlen bs.
Proof.
  intros Hok Hl H. rewrite variant_size_len, <- variant_size_canon by exact Hok. apply wire_minimal; [exact H|].
  clear H bs Hok. induction v using variant_ind'; cbn [list_free canon] in *; try easy.
  - apply (all_prop_pair _ _ (fun k w => list_free k /\ list_free w)) in Hl; [|easy].
    apply (all_prop_pair _ _ (fun k w => list_free k /\ list_free w)); [easy|]. apply Forall_map.
    rewrite Forall_forall in *. intros [k w] Hin. destruct (H _ Hin). destruct (Hl _ Hin). cbn [fst snd] in *. auto.
  - auto.
Qed.

Lemma variant_round_trip_equal md v rest : variant_ok v -> list_free v -> lossless v -> variant_size v < 2 ^ 32 -> decodable (canon v) ->
  exists w, decode variant_dec md (wbytes (variant_enc v) ++ rest) = Ok (rest, w) /\ variant_eqb v w = true.
Proof.
  intros H1 H2 H3 H4 H5. exists (canon v). split; [|now apply canon_equal].
  exact (type_round_trip variant_S ty_variant md v rest H1 H2 H4 H5).
Qed.

(** ** Lists are written as arrays *)
Lemma list_not_read {T} (d : dec T) md l rest : Forall variant_ok l ->
  exists c, decode (list_dec d) md (wbytes (list_enc variant_size variant_enc l) ++ rest) = Err (EInvalidFormatCode c) /\
            decode variant_dec md (wbytes (variant_enc (VList l)) ++ rest) = Err (EInvalidFormatCode c) /\ (c = 0xe0 \/ c = 0xf0).
Proof.
  intros _. change (variant_enc (VList l)) with (list_enc variant_size variant_enc l). unfold list_enc.
  destruct (255 <? _); [exists 0xf0|exists 0xe0]; wb; cbn [app];
    rewrite !decode_cons; (split; [reflexivity|split; [reflexivity|auto]]).
Qed.

(** Nothing but the first byte is wrong: with the list constructor in its place the bytes are those of the standard. *)
Lemma seq_emits l : Forall variant_ok l -> Forall list_free l -> list_encoded_size variant_size l < 2 ^ 32 ->
  wire_seq (map canon l) (wbytes (flat_map variant_enc l)) /\ zlen l <= list_encoded_size variant_size l.
Proof.
  unfold list_encoded_size. induction l as [|v l IH]; intros V L Z; [split; [constructor|cbn; lia]|].
  inversion V; subst. inversion L; subst. cbn [zsum map flat_map] in *. destruct (variant_el v ltac:(assumption)) as [_ P].
  cbn [variant_E e_size] in P.
  assert (0 <= zsum variant_size l) by (apply zsum_nonneg; intros w Hw; rewrite Forall_forall in *;
    assert (1 <= variant_size w) by (apply (variant_el w); auto); lia).
  destruct IH as [W N]; auto; [lia|]. rewrite wbytes_app, zlen_cons. split; [|lia]. constructor; [|exact W]. apply variant_emits; auto. lia.
Qed.
Lemma list_first_byte l : Forall variant_ok l -> Forall list_free l -> list_size variant_size l < 2 ^ 32 ->
  exists c c' bs, wbytes (list_enc variant_size variant_enc l) = c :: bs /\ (c = 0xe0 /\ c' = 0xc0 \/ c = 0xf0 /\ c' = 0xd0) /\
    wire (VList (map canon l)) (c' :: bs).
Proof.
  intros V L Z. unfold list_size in Z.
  assert (Z' : list_encoded_size variant_size l < 2 ^ 32) by (destruct (255 <? _) in Z; lia).
  destruct (seq_emits l V L Z') as [W N].
  assert (F : zlen (wbytes (flat_map variant_enc l)) = list_encoded_size variant_size l).
  { apply fits_flat_map. apply Forall_impl with (2 := V). intros v Hv. apply (variant_el v Hv). }
  pose proof (zlen_nonneg l). unfold list_enc. rewrite wbytes_app. destruct (Z.ltb_spec 255 (list_encoded_size variant_size l + 1)).
  - exists 0xf0, 0xd0. eexists. split; [wb; reflexivity|]. split; [now right|]. rewrite <- F at 1. rewrite <- (zlen_map canon l), <- app_assoc.
    apply W_list32; [exact W|lia].
  - exists 0xe0, 0xc0. eexists. split; [wb; reflexivity|]. split; [now left|]. rewrite !Z.mod_small by lia. rewrite <- F at 1.
    rewrite <- (zlen_map canon l). apply W_list8; [exact W|lia].
Qed.

(** A value that contains a list anywhere is never read back. *)
Definition frames (v : variant) : Prop := forall md rest r w,
  decode variant_dec md (wbytes (variant_enc v) ++ rest) = Ok (r, w) -> r = rest /\ list_free v.
Lemma map_iter_frames md m : Forall (fun kv => frames (fst kv) /\ frames (snd kv)) m -> forall rest acc r m',
  iter_res (length m) (map_step variant_key (decode variant_dec md) (decode variant_dec md))
    (wbytes (map_entries variant_enc variant_enc m) ++ rest, acc) = Ok (r, m') ->
  r = rest /\ Forall (fun kv => list_free (fst kv) /\ list_free (snd kv)) m.
Proof.
  induction 1 as [|[k v] m [Hk Hv] Hm IH]; intros rest acc r m' E.
  - cbn in E. injection E as -> _. split; [reflexivity|constructor].
  - cbn [length iter_res map_step] in E. unfold map_entries in E. cbn [flat_map] in E. rewrite !wbytes_app, <- !app_assoc in E.
    apply bind_ok in E as [s1 [E1 E2]]. apply bind_ok in E1 as [[i1 k'] [Ek E1]].
    cbn [fst snd] in *. apply Hk in Ek as [-> Lk]. apply bind_ok in E1 as [[i2 v'] [Ev E1]].
    apply Hv in Ev as [-> Lv]. destruct (k_hashable variant_key k'); [|discriminate]. injection E1 as <-.
    apply IH in E2 as [-> HF]. split; [reflexivity|]. constructor; auto.
Qed.
Lemma variant_frames v : variant_ok v -> variant_size v < 2 ^ 32 -> frames v.
Proof.
  induction v using variant_ind'; intros Hok Hs md rest r w E.
  all: try (lazymatch type of Hok with variant_ok ?v =>
    pose proof (type_round_trip variant_S ty_variant md v rest Hok I Hs I) as E'; change (s_dec variant_S) with variant_dec in E';
    change (s_bytes variant_S v) with (wbytes (variant_enc v)) in E'; rewrite E' in E; injection E as <- _; now split end).
  - split; [|exact I]. cbn [variant_enc] in E. rewrite datetime_emits in E. cbn [app] in E. rewrite decode_cons in E.
    change (map_res VTimestamp (datetime_dec md (be8 (millis t) ++ rest) 0x83) = Ok (r, w)) in E.
    apply map_res_ok in E as (t' & E & _). unfold datetime_dec in E. cbn [validate_code] in E.
    apply bind_ok in E as [? [_ E]]. rewrite be_read_signed_be8 in E by (now apply datetime_millis_range).
    cbn [bind] in E. apply bind_ok in E as [t2 [_ E]]. now injection E.
  - destruct (list_not_read variant_dec md l rest) as (c & _ & E2 & _); [now apply all_prop_Forall|].
    rewrite E2 in E. discriminate.
  - destruct Hok as [Hok _].
    apply (all_prop_pair _ _ (fun k w => variant_ok k /\ variant_hashable k = true /\ variant_ok w)) in Hok; [|easy].
    assert (F : Forall (fun kv => enc_fits (variant_size (fst kv)) (variant_enc (fst kv)) /\
                                  enc_fits (variant_size (snd kv)) (variant_enc (snd kv))) m).
    { eapply Forall_impl; [|exact Hok]. intros kv (H1 & _ & H2). split; now apply variant_el. }
    apply map_entries_fits in F as [F _]. cbn [variant_size] in Hs. unfold map_size in Hs.
    assert (HS : map_encoded_size variant_size variant_size m + 4 < 2 ^ 32) by (destruct (Z.ltb_spec 255 (map_encoded_size variant_size variant_size m + 1)); lia).
    assert (HN : forall kv, In kv m -> 0 <= (let (k, w) := kv in variant_size k + variant_size w)).
    { intros [k v] Hin. rewrite Forall_forall in Hok. destruct (Hok _ Hin) as (H1 & _ & H2). cbn [fst snd] in *.
      apply variant_size_pos in H1, H2. lia. }
    assert (HL : 2 * zlen m <= map_encoded_size variant_size variant_size m).
    { unfold map_encoded_size. apply zsum_ge. intros [k v] Hin. rewrite Forall_forall in Hok.
      destruct (Hok _ Hin) as (H1 & _ & H2). cbn [fst snd] in *. apply variant_size_pos in H1, H2. lia. }
    pose proof (zlen_nonneg m).
    assert (HF : Forall (fun kv => frames (fst kv) /\ frames (snd kv)) m).
    { rewrite Forall_forall in *. intros [k v] Hin. destruct (Hok _ Hin) as (H1 & _ & H2). destruct (H _ Hin) as [H3 H4].
      cbn [fst snd] in *. pose proof (zsum_in _ m (k, v) HN Hin) as HB. cbn beta iota in HB.
      unfold map_encoded_size in HS. pose proof (variant_size_pos k H1). pose proof (variant_size_pos v H2).
      split; [apply H3|apply H4]; auto; lia. }
    set (content := wbytes (map_entries variant_enc variant_enc m)) in *.
    assert (Key : forall rest' r' w', map_input <- slice_to (content ++ rest') (zlen content) ;;
       '(_, m1) <- loop_n (zlen m * 2 / 2) (map_step variant_key (decode variant_dec md) (decode variant_dec md)) (map_input, []) ;;
       Ok (zdrop (zlen content) (content ++ rest'), m1) = Ok (r', w') ->
       r' = rest' /\ Forall (fun kv => list_free (fst kv) /\ list_free (snd kv)) m).
    { intros rest' r' w' E'. unfold slice_to in E'. rewrite zlen_app in E'. pose proof (zlen_nonneg rest').
      destruct (Z.ltb_spec (zlen content + zlen rest') (zlen content)); [lia|]. cbn [bind] in E'.
      rewrite ztake_app, zdrop_app, Z.div_mul, loop_zlen in E' by lia.
      apply bind_ok in E' as [[r1 m1] [E1 E2]]. injection E2 as <- <-. split; [reflexivity|].
      rewrite <- (app_nil_r content) in E1. unfold content in E1. now apply map_iter_frames in E1 as [_ E1]. }
    cbn [variant_enc] in E. unfold map_enc in E. rewrite wbytes_app, <- app_assoc in E. fold content in E.
    destruct (Z.ltb_spec 255 (map_encoded_size variant_size variant_size m + 1)) as [HC|HC]; revert E; wb; cbn [app];
      change (FC_MAP32 mod 256) with 0xd1; change (FC_MAP8 mod 256) with 0xc1; rewrite decode_cons, variant_dec_unfold; intros E.
    + change (map_res VMap (map_dec variant_key variant_dec variant_dec md
        ((be4 (map_encoded_size variant_size variant_size m + 4) ++ be4 (zlen m * 2)) ++ content ++ rest) 0xd1) = Ok (r, w)) in E.
      apply map_res_ok in E as (m1 & E & _). unfold map_dec, decode_map_header in E. cbn [Z.eqb] in E.
      rewrite <- app_assoc in E.
      change (0xd1 =? FC_MAP8) with false in E. change (0xd1 =? FC_MAP32) with true in E. cbn iota in E.
      rewrite compound32_read in E by lia. cbn [bind ch_size ch_count] in E.
      replace (map_encoded_size variant_size variant_size m + 4 - 4) with (zlen content) in E by lia.
      apply Key in E as [-> HLF]. split; [reflexivity|]. cbn [list_free].
      apply (all_prop_pair _ _ (fun k w => list_free k /\ list_free w)); [easy|exact HLF].
    + change (map_res VMap (map_dec variant_key variant_dec variant_dec md
        ((map_encoded_size variant_size variant_size m + 1) mod 256 :: (zlen m * 2) mod 256 :: content ++ rest) 0xc1) = Ok (r, w)) in E.
      apply map_res_ok in E as (m1 & E & _). unfold map_dec, decode_map_header in E.
      change (0xc1 =? FC_MAP8) with true in E. cbn iota in E.
      rewrite (Z.mod_small (_ + 1)) in E by lia. rewrite (Z.mod_small (_ * 2)) in E by lia.
      rewrite compound8_read in E by lia. cbn [bind ch_size ch_count] in E.
      replace (map_encoded_size variant_size variant_size m + 1 - 1) with (zlen content) in E by lia.
      apply Key in E as [-> HLF]. split; [reflexivity|]. cbn [list_free].
      apply (all_prop_pair _ _ (fun k w => list_free k /\ list_free w)); [easy|exact HLF].
  - destruct Hok as [Hd Hv]. cbn [variant_size] in Hs. destruct (descriptor_el d Hd) as [_ HP]. cbn [descriptor_E e_size] in HP.
    cbn [variant_enc] in E. rewrite wbytes_app, <- app_assoc in E. unfold descriptor_enc in E. rewrite wbytes_cons in E.
    change (wop_bytes (put_u8 FC_DESCRIBED)) with [0] in E. cbn [app] in E. rewrite decode_cons, variant_dec_unfold in E.
    set (tail := wbytes (variant_enc v) ++ rest) in *.
    change ('(inp1, d) <- decode descriptor_dec md (wbytes match d with DUlong v0 => u64_enc v0 | DSymbol s => symbol_enc s end ++ tail) ;;
      '(inp2, v) <- decode variant_dec md inp1 ;; Ok (inp2, VDescribed d v) = Ok (r, w)) in E.
    apply bind_ok in E as [[i1 d'] [E1 E2]]. apply bind_ok in E2 as [[i2 v'] [E2 E3]]. injection E3 as <- _.
    assert (i1 = tail) as ->.
    { destruct d as [x|s]; cbn [descriptor_ok descriptor_size] in *.
      - destruct (Z.eq_dec x 0) as [->|Hx]; [change (decode descriptor_dec md (0x44 :: tail) = Ok (i1, d')) in E1; rewrite decode_cons in E1; discriminate E1|].
        assert (decodes md descriptor_dec (wbytes (u64_enc x)) (DUlong x)) as W.
        { apply descriptor_accepts; [congruence|]. constructor. now apply u64_emits. }
        rewrite W in E1. now injection E1.
      - assert (decodes md descriptor_dec (wbytes (symbol_enc s)) (DSymbol (SByteStr (str_bytes s)))) as W0; [|rewrite W0 in E1; now injection E1].
        apply descriptor_accepts; [congruence|]. constructor.
        pose proof (g_emits symbol_S symbol_good s Hd I) as W. unfold s_size in W. cbn [symbol_S s_codec symbol_C c_E symbol_E e_size] in W.
        pose proof (variant_size_pos v Hv). destruct (W ltac:(lia)) as (b & Eb & W'). injection Eb as <-. exact W'. }
    unfold tail in E2. apply IHv in E2 as [-> L]; [split; [reflexivity|exact L]|exact Hv|].
    lia.
Qed.
