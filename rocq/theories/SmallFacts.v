(** Enumerations, [Multiple], texts and the SASL PLAIN response. *)

From Coq Require Import String.
From Verif Require Import Definitions BaseFacts Utf8Spec Valid Wire PrimFacts DecLaws EncLaws VariantFacts TypeSpec TypeFacts CompositeSpec
  CompositeFacts AllTypes AllTypesFacts CodecSpec EqFacts CodecFacts.
From Coq Require Import ZifyBool.
Open Scope Z_scope.

(** ** Enumerations *)
Definition enum_facts {T B : Type} (S : tspec T) (w : B -> bytes -> Prop) (table : list (T * B)) (name : string) : Prop :=
  (forall x, exists b, In (x, b) table /\ w b (s_bytes S x)) /\
  (forall x b c, In (x, b) table -> In (x, c) table -> b = c) /\
  (forall x y b, In (x, b) table -> In (y, b) table -> x = y) /\
  (forall md x b bs rest, In (x, b) table -> w b bs -> decode (s_dec S) md (bs ++ rest) = Ok (rest, x)) /\
  (forall md b bs rest, ~ In b (map snd table) -> w b bs -> decode (s_dec S) md (bs ++ rest) = Err (EUnknownEnumOption name)).
Lemma enum_decode {T B} (dB : dec B) (tryf : B -> res T) md bs rest b r : decode dB md (bs ++ rest) = Ok (rest, b) -> tryf b = r ->
  decode (enum_dec dB tryf) md (bs ++ rest) = (v <- r ;; Ok (rest, v)).
Proof.
  intros D <-. unfold decode in *. destruct (decode_format_code (bs ++ rest)) as [[i f]|e|p|]; cbn [bind] in *; try discriminate.
  unfold enum_dec. now rewrite D.
Qed.
Ltac fun_table := intros; repeat match goal with H : In _ _ |- _ => cbn [In texts map fst snd] in H end; intuition congruence.
Ltac find_entry := vm_compute; repeat (first [left; reflexivity|right]).
Lemma sym_is_text b t : sym_is (SByteStr b) t = true <-> b = s2b t.
Proof. unfold sym_is. cbn [str_bytes]. apply bytes_eqb_eq. Qed.
Ltac not_in H :=
  exfalso; apply H;
  match goal with
  | E : sym_is (SByteStr ?b) ?t = true |- _ => apply sym_is_text in E; rewrite E; find_entry
  | E : (?b =? ?n) = true |- _ => apply Z.eqb_eq in E; rewrite E; find_entry
  end.
Ltac try_ifs tf H :=
  unfold tf; repeat match goal with |- (if ?c then _ else _) = _ => destruct c eqn:?; [not_in H|] end; reflexivity.
Ltac enum_tac G base tf tin :=
  split; [intros x; destruct (g_emits _ G x I I ltac:(destruct x; vm_compute; reflexivity)) as (b & Hin & Hw); tin|
  split; [fun_table|split; [fun_table|split; [|]]]].
Lemma texts_in {T} (table : list (T * string)) x b : In (x, b) (texts table) <-> exists t, In (x, t) table /\ b = s2b t.
Proof.
  unfold texts. rewrite in_map_iff. split.
  - intros ([y t] & [= -> <-] & H). now exists t.
  - intros (t & H & ->). now exists (x, t).
Qed.
Lemma symbol_enum_facts {T} (C : codec T) (table : list (T * string)) tryf name : c_D C = enum_dec symbol_dec tryf ->
  good (enum_S C symbol_codes wire_name table) ->
  (forall x, s_size (enum_S C symbol_codes wire_name table) x < 2 ^ 32) ->
  (forall x b c, In (x, b) (texts table) -> In (x, c) (texts table) -> b = c) ->
  (forall x y b, In (x, b) (texts table) -> In (y, b) (texts table) -> x = y) ->
  (forall b, ~ In b (map snd (texts table)) -> tryf (SByteStr b) = Err (EUnknownEnumOption name)) ->
  enum_facts (enum_S C symbol_codes wire_name table) wire_symbol (texts table) name.
Proof.
  intros HD G Hs F1 F2 F3. split; [|split; [exact F1|split; [exact F2|split]]].
  - intros x. destruct (g_emits _ G x I I (Hs x)) as (t & Hin & Hw). exists (s2b t). split; [|exact Hw]. apply texts_in. now exists t.
  - intros md x b bs rest Hin W. apply texts_in in Hin as (t & Hin & ->). apply (g_accepts _ G md x bs); [now exists t|exact I].
  - intros md b bs rest Hn W. unfold s_dec. cbn [s_codec enum_S]. rewrite HD.
    rewrite (enum_decode symbol_dec tryf md bs rest (SByteStr b) _ (symbol_accepts md b bs W rest) (F3 b Hn)). reflexivity.
Qed.
Lemma base_enum_facts {T B} (SB : tspec B) (C : codec T) codes (w : B -> bytes -> Prop) (table : list (T * B)) tryf name :
  good SB -> c_D C = enum_dec (s_dec SB) tryf -> good (enum_S C codes w table) -> (forall b bs, w b bs -> s_wire SB b bs) ->
  (forall b, s_decodable SB b) ->
  (forall x, s_size (enum_S C codes w table) x < 2 ^ 32) ->
  (forall x b c, In (x, b) table -> In (x, c) table -> b = c) ->
  (forall x y b, In (x, b) table -> In (y, b) table -> x = y) ->
  (forall b, ~ In b (map snd table) -> tryf b = Err (EUnknownEnumOption name)) ->
  enum_facts (enum_S C codes w table) w table name.
Proof.
  intros GB HD G HW HB Hs F1 F2 F3. split; [|split; [exact F1|split; [exact F2|split]]].
  - intros x. destruct (g_emits _ G x I I (Hs x)) as (t & Hin & Hw). exists t. now split.
  - intros md x b bs rest Hin W. apply (g_accepts _ G md x bs); [now exists b|exact I].
  - intros md b bs rest Hn W. unfold s_dec. cbn [s_codec enum_S]. rewrite HD.
    rewrite (enum_decode (s_dec SB) tryf md bs rest b _ (g_accepts _ GB md b bs (HW _ _ W) (HB b) rest) (F3 b Hn)). reflexivity.
Qed.
Ltac size_tac := intros x; destruct x; vm_compute; reflexivity.
Ltac fun_tac := intros ? ? ?; vm_compute; intuition congruence.
Ltac sym_tac G tf := apply (symbol_enum_facts _ _ tf); [reflexivity|exact G|size_tac|fun_tac|fun_tac|intros b H; try_ifs tf H].
Lemma enumeration_facts {T B : Type} (S : tspec T) (w : B -> bytes -> Prop) table name : enumeration S w table name -> enum_facts S w table name.
Proof.
  destruct 1.
  - apply (base_enum_facts bool_S _ _ _ _ role_try_from); [exact bool_good|reflexivity|exact role_good|easy|easy|size_tac|fun_tac|fun_tac|].
    intros [|] H; exfalso; apply H; find_entry.
  - apply (base_enum_facts u8_S _ _ _ _ sender_settle_mode_try_from); [exact u8_good|reflexivity|exact sender_settle_mode_good|easy|easy|size_tac|fun_tac|fun_tac|].
    intros b H; try_ifs sender_settle_mode_try_from H.
  - apply (base_enum_facts u8_S _ _ _ _ receiver_settle_mode_try_from); [exact u8_good|reflexivity|exact receiver_settle_mode_good|easy|easy|size_tac|fun_tac|fun_tac|].
    intros b H; try_ifs receiver_settle_mode_try_from H.
  - apply (base_enum_facts u8_S _ _ _ _ sasl_code_try_from); [exact u8_good|reflexivity|exact sasl_code_good|easy|easy|size_tac|fun_tac|fun_tac|].
    intros b H; try_ifs sasl_code_try_from H.
  - apply (base_enum_facts u32_S _ _ _ _ terminus_durability_try_from); [exact u32_good|reflexivity|exact terminus_durability_good|easy|easy|size_tac|fun_tac|fun_tac|].
    intros b H; try_ifs terminus_durability_try_from H.
  - sym_tac terminus_expiry_policy_good terminus_expiry_policy_try_from.
  - sym_tac amqp_error_good amqp_error_try_from.
  - sym_tac connection_error_good connection_error_try_from.
  - sym_tac session_error_good session_error_try_from.
  - sym_tac link_error_good link_error_try_from.
Qed.

(** ** Open enumerations *)
Lemma lookup_name_none {T} text (table : list (T * string)) : (forall y t, In (y, t) table -> text <> s2b t) -> lookup_name text table = None.
Proof.
  induction table as [|[x t] r IH]; intros H; [reflexivity|]. cbn [lookup_name]. destruct (bytes_eqb text (s2b t)) eqn:E.
  - apply bytes_eqb_eq in E. exfalso. apply (H x t); [now left|exact E].
  - apply IH. intros y u Hin. apply (H y u). now right.
Qed.
Lemma lookup_name_in {T} text (table : list (T * string)) y t : In (y, t) table -> text = s2b t -> exists z, lookup_name text table = Some z.
Proof.
  induction table as [|[x u] r IH]; intros [] E; cbn [lookup_name].
  - injection H as -> ->. rewrite (proj2 (bytes_eqb_eq _ _) E). now exists y.
  - destruct (bytes_eqb text (s2b u)); [now exists x|now apply IH].
Qed.
Lemma lookup_name_some {T} text (table : list (T * string)) y t : NoDup (map (fun e => s2b (snd e)) table) ->
  In (y, t) table -> text = s2b t -> lookup_name text table = Some y.
Proof.
  induction table as [|[x u] r IH]; intros N Hin E; [easy|]. inversion N; subst. cbn [lookup_name]. destruct Hin as [[= -> ->]|Hin].
  - now rewrite (proj2 (bytes_eqb_eq _ _) eq_refl).
  - destruct (bytes_eqb (s2b t) (s2b u)) eqn:E; [|now apply IH]. apply bytes_eqb_eq in E. exfalso. apply H1. cbn [snd]. rewrite <- E.
    apply in_map_iff. now exists (y, t).
Qed.
Lemma condition_names : NoDup (map (fun e => s2b (snd e)) condition_table).
Proof. vm_compute. repeat (apply NoDup_cons; [cbv; intuition discriminate|]). apply NoDup_nil. Qed.
Lemma distribution_names : NoDup (map (fun e => s2b (snd e)) distribution_table).
Proof. vm_compute. repeat (apply NoDup_cons; [cbv; intuition discriminate|]). apply NoDup_nil. Qed.

Lemma custom_condition_kept md s rest : symbol_ok s -> zlen (str_bytes s) < 2 ^ 32 - 5 ->
  (forall y t, In (y, t) condition_table -> str_bytes s <> s2b t) ->
  decode error_condition_dec md (wbytes (error_condition_enc (EC_Custom s)) ++ rest) = Ok (rest, EC_Custom (SByteStr (str_bytes s))).
Proof.
  intros H1 H2 H3. pose proof (type_round_trip error_condition_S ty_error_condition md (EC_Custom s) rest H1 I) as E.
  unfold s_dec, s_bytes in E. cbn [error_condition_S open_enum_S s_codec s_canon condition_custom] in E. rewrite (lookup_name_none _ _ H3) in E.
  apply E; [|exact I]. unfold s_size. cbn [error_condition_S open_enum_S s_codec].
  change (symbol_size s < 2 ^ 32). unfold symbol_size, var_size. rewrite str_len_bytes. change (2 ^ 32) with 4294967296 in *; pose proof (zlen_nonneg (str_bytes s)); destruct (255 <? zlen (str_bytes s)); lia.
Qed.
Lemma custom_condition_known md s rest y t : In (y, t) condition_table -> str_bytes s = s2b t ->
  decode error_condition_dec md (wbytes (error_condition_enc (EC_Custom s)) ++ rest) = Ok (rest, y) /\
  wbytes (error_condition_enc (EC_Custom s)) = wbytes (error_condition_enc y).
Proof.
  intros Hin Ht.
  assert (B : wbytes (error_condition_enc (EC_Custom s)) = wbytes (symbol_enc (SByteStr (s2b t)))).
  { change (wbytes (symbol_enc s) = wbytes (symbol_enc (SByteStr (s2b t)))). unfold symbol_enc. cbn [str_bytes]. now rewrite Ht. }
  assert (W : wire_symbol (s2b t) (wbytes (symbol_enc (SByteStr (s2b t)))) /\ wbytes (error_condition_enc (EC_Custom s)) = wbytes (error_condition_enc y)).
  { rewrite B. revert Hin. clear. intros Hin. repeat (destruct Hin as [[= <- <-]|Hin]; [split; [apply static_symbol_wire|]; vm_compute; reflexivity|]). destruct Hin. }
  destruct W as [W E]. split; [|exact E]. rewrite B.
  refine (type_accepts error_condition_S ty_error_condition md y _ rest _ I). exists (s2b t). split; [exact W|].
  now rewrite (lookup_name_some _ condition_table y t condition_names Hin eq_refl).
Qed.
Lemma custom_distribution_kept md s rest : symbol_ok s -> zlen (str_bytes s) < 2 ^ 32 - 5 ->
  str_bytes s <> s2b "move" -> str_bytes s <> s2b "copy" ->
  decode distribution_mode_dec md (wbytes (distribution_mode_enc (DM_Custom s)) ++ rest) = Ok (rest, DM_Custom (SByteStr (str_bytes s))).
Proof.
  intros H1 H2 H3 H4. pose proof (type_round_trip distribution_mode_S ty_distribution_mode md (DM_Custom s) rest H1 I) as E.
  unfold s_dec, s_bytes in E. cbn [distribution_mode_S open_enum_S s_codec s_canon distribution_custom] in E. rewrite lookup_name_none in E.
  - apply E; [|exact I]. unfold s_size. cbn [distribution_mode_S open_enum_S s_codec].
    change (symbol_size s < 2 ^ 32). unfold symbol_size, var_size. rewrite str_len_bytes. change (2 ^ 32) with 4294967296 in *; pose proof (zlen_nonneg (str_bytes s)); destruct (255 <? zlen (str_bytes s)); lia.
  - intros y t [[= <- <-]|[[= <- <-]|[]]]; assumption.
Qed.
Lemma custom_distribution_known md s rest y t : In (y, t) distribution_table -> str_bytes s = s2b t ->
  decode distribution_mode_dec md (wbytes (distribution_mode_enc (DM_Custom s)) ++ rest) = Ok (rest, y) /\
  wbytes (distribution_mode_enc (DM_Custom s)) = wbytes (distribution_mode_enc y).
Proof.
  intros Hin Ht.
  assert (B : wbytes (distribution_mode_enc (DM_Custom s)) = wbytes (symbol_enc (SByteStr (s2b t)))).
  { change (wbytes (symbol_enc s) = wbytes (symbol_enc (SByteStr (s2b t)))). unfold symbol_enc. cbn [str_bytes]. now rewrite Ht. }
  assert (W : wire_symbol (s2b t) (wbytes (symbol_enc (SByteStr (s2b t)))) /\ wbytes (distribution_mode_enc (DM_Custom s)) = wbytes (distribution_mode_enc y)).
  { rewrite B. revert Hin. clear. intros Hin. repeat (destruct Hin as [[= <- <-]|Hin]; [split; [apply static_symbol_wire|]; vm_compute; reflexivity|]). destruct Hin. }
  destruct W as [W E]. split; [|exact E]. rewrite B.
  refine (type_accepts distribution_mode_S ty_distribution_mode md y _ rest _ I). exists (s2b t). split; [exact W|].
  now rewrite (lookup_name_some _ distribution_table y t distribution_names Hin eq_refl).
Qed.

(** ** [Multiple] *)
Lemma multiple_one {T} A width (S : tspec T) x : s_bytes (multiple_S A width S) [x] = s_bytes S x. Proof. reflexivity. Qed.
Lemma multiple_many {T} A width (S : tspec T) l : zlen l <> 1 -> s_bytes (multiple_S A width S) l = s_bytes (vec_S A width S) l.
Proof. intros H. destruct l as [|x [|y l]]; [reflexivity|now destruct H|reflexivity]. Qed.
Lemma multiple_reads {T} A width (S : tspec T) : element A width S -> ~ In 0xe0 (s_codes S) -> ~ In 0xf0 (s_codes S) ->
  forall md l rest, Forall (s_decodable S) l ->
  (forall x bs, l = [x] -> s_wire S x bs -> decode (s_dec (multiple_S A width S)) md (bs ++ rest) = Ok (rest, l)) /\
  (forall bs, wire_array (s_wire S) l bs -> decode (s_dec (multiple_S A width S)) md (bs ++ rest) = Ok (rest, l)).
Proof.
  intros EL N1 N2 md l rest D. pose proof (ty_multiple _ A width S EL N1 N2) as TY. split.
  - intros x bs -> W. apply (type_accepts _ TY); [right; now exists x|exact D].
  - intros bs W. apply (type_accepts _ TY); [now left|exact D].
Qed.

(** ** Texts *)
Lemma bytes_cmp_spec a b : match bytes_cmp a b with Eq => a = b | Lt => text_before a b | Gt => text_before b a end.
Proof.
  revert b. induction a as [|x a IH]; intros [|y b]; cbn [bytes_cmp]; try constructor.
  destruct (Z.compare_spec x y) as [->|H|H]; [|now constructor|now constructor].
  specialize (IH b). destruct (bytes_cmp a b); [now subst|now constructor|now constructor].
Qed.
Lemma variant_eq_text_spec v t : variant_eq_text v t = true <-> variant_as_str v = Some t.
Proof.
  destruct v; cbn [variant_eq_text variant_as_str]; try easy; rewrite str_eq_text_spec; (split; [now intros ->|now intros [= ->]]).
Qed.

(** ** SASL PLAIN *)
Lemma split_at_zero a a' b b' : ~ In 0 a -> ~ In 0 a' -> a ++ 0 :: b = a' ++ 0 :: b' -> a = a' /\ b = b'.
Proof.
  revert a'. induction a as [|x a IH]; intros [|y a'] H1 H2 E; cbn [app] in E.
  - injection E as ->. easy.
  - injection E as <- _. exfalso. apply H2. now left.
  - injection E as -> _. exfalso. apply H1. now left.
  - injection E as -> E. destruct (IH a') as [-> ->]; [intros H; apply H1; now right|intros H; apply H2; now right|exact E|easy].
Qed.
Lemma prepare_response_unique z c p z' c' p' : ~ In 0 z -> ~ In 0 c -> ~ In 0 z' -> ~ In 0 c' ->
  prepare_response z c p = prepare_response z' c' p' -> z = z' /\ c = c' /\ p = p'.
Proof.
  intros H1 H2 H3 H4 E. unfold prepare_response in E. cbn [app] in E.
  apply split_at_zero in E as [-> E]; auto. apply split_at_zero in E as [-> ->]; auto.
Qed.

(** A list with the right first byte is read. *)
Lemma list_first_byte_read l : Forall variant_ok l -> Forall list_free l -> list_size variant_size l < 2 ^ 32 ->
  exists c c' bs, wbytes (list_enc variant_size variant_enc l) = c :: bs /\ (c = 0xe0 /\ c' = 0xc0 \/ c = 0xf0 /\ c' = 0xd0) /\
    wire (VList (map canon l)) (c' :: bs) /\
    (decodable (VList (map canon l)) -> forall md rest, decode variant_dec md (c' :: bs ++ rest) = Ok (rest, VList (map canon l))).
Proof.
  intros V L S. destruct (list_first_byte l V L S) as (c & c' & bs & E & C & W). exists c, c', bs. repeat split; [exact E|exact C|exact W|].
  intros D md rest. exact (type_accepts variant_S ty_variant md _ (c' :: bs) rest W D).
Qed.
