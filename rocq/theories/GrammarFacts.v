(** The decoders read exactly their grammars. *)

From Coq Require Import String.
From Verif Require Import Definitions BaseFacts Utf8Spec Utf8Facts Valid Wire PrimFacts DecLaws EncLaws VariantFacts TypeSpec TypeFacts CompositeSpec
  CompositeFacts AllTypes AllTypesFacts CodecSpec EqFacts CodecFacts MapFacts ValueFacts ExactFacts CompositeReads GrammarSpec.
From Coq Require Import ZifyBool.
Open Scope Z_scope.

Scheme grammar_mind := Minimality for grammar Sort Prop
  with field_grammar_mind := Minimality for field_grammar Sort Prop
  with body_grammar_mind := Minimality for body_grammar Sort Prop
  with union_grammar_mind := Minimality for union_grammar Sort Prop.
Combined Scheme grammar_mutind from grammar_mind, field_grammar_mind, body_grammar_mind, union_grammar_mind.

(** ** What is left of repeated entries *)
Section Entries.
  Context {K V : Type} (KO : key K) (KE : key_equivalence KO).
  Local Notation eqb := (k_eqb KO).
  Local Notation hashable m := (Forall (fun kv : K * V => k_hashable KO (fst kv) = true) m).
  Lemma last_value_snoc k0 (ps : list (K * V)) k v :
    last_value eqb k0 (ps ++ [(k, v)]) = if eqb k0 k then Some v else last_value eqb k0 ps.
  Proof.
    induction ps as [|[k1 v1] ps IH]; cbn [app last_value]; [reflexivity|]. rewrite IH. now destruct (eqb k0 k).
  Qed.
  Lemma filter_insert_same k1 k v (m : list (K * V)) : hashable m -> k_hashable KO k1 = true -> k_hashable KO k = true -> eqb k k1 = true ->
    filter (fun kv => negb (eqb (fst kv) k1)) (hm_insert eqb k v m) = filter (fun kv => negb (eqb (fst kv) k1)) m.
  Proof.
    intros H H1 H2 E. induction H as [|[k' v'] m Hk Hm IH]; cbn [hm_insert filter fst]; [now rewrite E|]. cbn [fst] in Hk.
    destruct (eqb k k') eqn:E'; cbn [filter fst].
    - rewrite (ke_trans KO KE k' k k1); auto. now apply (ke_sym KO KE).
    - now rewrite IH.
  Qed.
  Lemma filter_insert_other k1 k v (m : list (K * V)) : hashable m -> k_hashable KO k1 = true -> k_hashable KO k = true -> eqb k k1 = false ->
    filter (fun kv => negb (eqb (fst kv) k1)) (hm_insert eqb k v m) = hm_insert eqb k v (filter (fun kv => negb (eqb (fst kv) k1)) m).
  Proof.
    intros H H1 H2 E. induction H as [|[k' v'] m Hk Hm IH]; cbn [hm_insert filter fst]; [now rewrite E|]. cbn [fst] in Hk.
    destruct (eqb k k') eqn:E'; cbn [filter fst].
    - destruct (eqb k' k1) eqn:E1; cbn [negb]; [rewrite (ke_trans KO KE k k' k1) in E; auto; discriminate|]. cbn [hm_insert]. now rewrite E'.
    - destruct (eqb k' k1) eqn:E1; cbn [negb]; [exact IH|]. cbn [hm_insert]. rewrite E'. now rewrite IH.
  Qed.
  Lemma entries_of_hashable (ps : list (K * V)) : hashable ps -> hashable (entries_of eqb ps).
  Proof.
    induction 1 as [|[k v] ps Hk Hps IH]; cbn [entries_of]; constructor; [exact Hk|]. rewrite Forall_forall in *. intros x Hx.
    apply filter_In in Hx as [Hx _]. auto.
  Qed.
  Lemma entries_of_snoc (ps : list (K * V)) k v : hashable ps -> k_hashable KO k = true ->
    entries_of eqb (ps ++ [(k, v)]) = hm_insert eqb k v (entries_of eqb ps).
  Proof.
    intros H Hk. induction H as [|[k1 v1] ps H1 Hps IH]; [reflexivity|]. cbn [app entries_of hm_insert fst] in *.
    rewrite last_value_snoc, IH. pose proof (entries_of_hashable ps Hps) as HE. destruct (eqb k k1) eqn:E.
    - rewrite (ke_sym KO KE k k1) by auto. now rewrite filter_insert_same.
    - destruct (eqb k1 k) eqn:E'; [rewrite (ke_sym KO KE k1 k) in E; auto; discriminate|]. now rewrite filter_insert_other.
  Qed.
  Lemma insert_all_entries (ps : list (K * V)) : hashable ps -> insert_all KO ps [] = entries_of eqb ps.
  Proof.
    induction ps as [|[k v] ps IH] using rev_ind; intros H; [reflexivity|]. apply Forall_app in H as [H1 H2]. inversion H2; subst.
    rewrite entries_of_snoc by auto. rewrite <- IH by exact H1. unfold insert_all. now rewrite fold_left_app.
  Qed.
End Entries.

(** ** From decoders to grammars *)
Definition exact_for {T} (G : mode -> T -> bytes -> Prop) (d : dec T) : Prop :=
  forall md bs v, bytes_ok bs -> (reads d md bs v <-> G md v bs).
Lemma app_ok (a b : bytes) : bytes_ok (a ++ b) <-> bytes_ok a /\ bytes_ok b. Proof. apply Forall_app. Qed.
Lemma reads_nil {T} (d : dec T) md bs v : reads d md bs v -> decode d md bs = Ok ([], v).
Proof. intros R. rewrite <- (R []). now rewrite app_nil_r. Qed.
Lemma lawful_reads {T} (P : T -> Prop) (d : dec T) md bs v : lawful P (decode d md) -> decode d md bs = Ok ([], v) -> reads d md bs v.
Proof. intros L E. destruct (L _ _ _ E) as [(p & Ep & Hp) _]. rewrite app_nil_r in Ep. subst p. exact Hp. Qed.
Lemma exact_decode {T} (S : tspec T) G : amqp_type S -> exact_for G (s_dec S) -> forall md inp rest v, bytes_ok inp ->
  (decode (s_dec S) md inp = Ok (rest, v) <-> exists bs, inp = bs ++ rest /\ G md v bs).
Proof.
  intros TS X md inp rest v Hb. split.
  - intros E. destruct (type_lawful S md TS _ _ _ E) as [(p & -> & Hp) _]. exists p. split; [reflexivity|]. apply X; [now apply app_ok in Hb|exact Hp].
  - intros (bs & -> & HG). apply app_ok in Hb as [Hb _]. now apply X in HG.
Qed.
Lemma exact_cons {T} G (d : dec T) : exact_for G d -> forall md c b v, byte_ok c -> bytes_ok b ->
  ((forall rest, d md (b ++ rest) c = Ok (rest, v)) <-> G md v (c :: b)).
Proof.
  intros X md c b v Hc Hb. rewrite <- (X md (c :: b) v) by (constructor; assumption). unfold reads. split; intros H rest; specialize (H rest); cbn [app] in *; now rewrite decode_cons in *.
Qed.
Lemma exact_nonempty {T} G (d : dec T) : exact_for G d -> forall md v, ~ G md v [].
Proof. intros X md v H. apply X in H; [|constructor]. now specialize (H []). Qed.

Lemma pairs_convert {K V} (dk : dec K) (dv : dec V) md GK GV ps content : bytes_ok content ->
  (forall b k, bytes_ok b -> zlen b <= zlen content -> (reads dk md b k <-> GK k b)) ->
  (forall b v, bytes_ok b -> zlen b <= zlen content -> (reads dv md b v <-> GV v b)) ->
  (reads_pairs dk dv md ps content <-> wire_pairs GK GV ps content).
Proof.
  intros Hb XK XV. split; induction 1 as [|k v ps bk bv bs Hk Hv Hps IH]; constructor;
    apply app_ok in Hb as [B1 Hb]; apply app_ok in Hb as [B2 Hb]; rewrite !zlen_app in *;
    pose proof (zlen_nonneg bk); pose proof (zlen_nonneg bv); pose proof (zlen_nonneg bs);
    try (apply XK; auto; lia); try (apply XV; auto; lia);
    apply IH; auto; intros; first [apply XK|apply XV]; auto; lia.
Qed.
Lemma seq_convert {T} (read : bytes -> res (bytes * T)) (G : T -> bytes -> Prop) l content : bytes_ok content ->
  (forall b v, bytes_ok b -> zlen b <= zlen content -> ((forall rest, read (b ++ rest) = Ok (rest, v)) <-> G v b)) ->
  (reads_all read l content <-> in_sequence G l content).
Proof.
  intros Hb X. split; induction 1 as [|v l b bs Hv Hl IH]; constructor;
    apply app_ok in Hb as [B1 Hb]; rewrite !zlen_app in *; pose proof (zlen_nonneg b); pose proof (zlen_nonneg bs);
    try (apply X; auto; lia); apply IH; auto; intros; apply X; auto; lia.
Qed.

(** ** Generic values *)
Lemma map_value md b m : bytes_ok b ->
  (forall c v, bytes_ok c -> zlen c < zlen b -> (reads variant_dec md c v <-> read_value md v c)) ->
  (reads (map_dec variant_key variant_dec variant_dec) md b m <->
   exists ps n hdr content junk, map_header md n (zlen (content ++ junk)) hdr /\ zlen ps = n / 2 /\
    wire_pairs (read_value md) (read_value md) ps content /\ Forall (fun kv => variant_hashable (fst kv) = true) ps /\
    m = entries_of variant_eqb ps /\ b = hdr ++ content ++ junk).
Proof.
  intros Hb IH.
  assert (LV : lawful any (decode variant_dec md)) by (apply (lawful_weaken variant_ok); [easy|exact (type_lawful variant_S md ty_variant)]).
  assert (HH : forall n len hdr, map_header md n len hdr -> 1 <= zlen hdr).
  { intros n len hdr [(_ & _ & ->)|(_ & _ & ->)]; rewrite zlen_cons; [|pose proof (zlen_nonneg (be4 ((len + 4) mod 2 ^ 32) ++ be4 n)); lia]. unfold zlen; cbn; lia. }
  split.
  - intros R. apply reads_nil in R. destruct (map_dec_read variant_key _ _ md LV LV _ _ _ Hb R) as (hdr & n & ps & content & junk & E & H1 & H2 & H3 & H4 & ->).
    rewrite app_nil_r in E. subst b. exists ps, n, hdr, content, junk. apply app_ok in Hb as [_ Hb]. apply app_ok in Hb as [Hb _].
    split; [exact H1|]. split; [exact H2|]. split; [|split; [exact H4|split; [|reflexivity]]].
    + apply HH in H1. rewrite !zlen_app in IH. pose proof (zlen_nonneg junk).
      apply (pairs_convert variant_dec variant_dec md); auto; intros; apply IH; auto; lia.
    + exact (insert_all_entries variant_key variant_key_equivalence ps H4).
  - intros (ps & n & hdr & content & junk & H1 & H2 & H3 & H4 & -> & ->) rest. rewrite <- !app_assoc.
    change variant_eqb with (k_eqb variant_key).
    rewrite <- (insert_all_entries variant_key variant_key_equivalence ps H4). apply (map_dec_accepts variant_key variant_dec variant_dec md hdr n); auto.
    apply HH in H1. apply app_ok in Hb as [_ Hb]. apply app_ok in Hb as [Hb _]. rewrite !zlen_app in IH. pose proof (zlen_nonneg junk).
    apply (pairs_convert variant_dec variant_dec md) in H3; auto; intros; apply IH; auto; lia.
Qed.
Lemma list_value md b l : bytes_ok b ->
  (forall c v, bytes_ok c -> zlen c < zlen b -> (reads variant_dec md c v <-> read_value md v c)) ->
  (reads (list_dec variant_dec) md b l <->
   exists len hdr content, list_header md (zlen l) len hdr /\ in_sequence (read_value md) l content /\ b = hdr ++ content).
Proof.
  intros Hb IH.
  assert (HH : forall n len hdr, list_header md n len hdr -> 1 <= zlen hdr).
  { intros n len hdr [(_ & _ & ->)|[(_ & _ & ->)|(_ & _ & ->)]]; rewrite zlen_cons; try (unfold zlen; cbn; lia). }
  split.
  - intros R. apply reads_nil in R. destruct (list_read md _ _ _ Hb R) as (hdr & len & content & E & H1 & H2). rewrite app_nil_r in E. subst b.
    exists len, hdr, content. split; [exact H1|]. split; [|reflexivity]. apply HH in H1. rewrite zlen_app in IH. apply app_ok in Hb as [_ Hb].
    apply (seq_convert (decode variant_dec md)); auto. intros. apply IH; auto; lia.
  - intros (len & hdr & content & H1 & H2 & ->) rest. rewrite <- app_assoc. apply (list_accepts_any_size md l len hdr content rest H1).
    apply HH in H1. rewrite zlen_app in IH. apply app_ok in Hb as [_ Hb].
    apply (seq_convert (decode variant_dec md)) in H2; auto. intros. apply IH; auto; lia.
Qed.

Lemma descriptor_exact : exact_for (fun _ d bs => wire_descriptor d bs /\ bs <> [0x44]) descriptor_dec.
Proof.
  intros md bs d Hb. split.
  - intros R. apply reads_nil in R. pose proof R as R'. apply descriptor_read in R as (label & E & W); [|exact Hb]. rewrite app_nil_r in E. subst label.
    split; [exact W|]. intros ->. discriminate.
  - intros [W N] rest. inversion W as [v b [|z H|z H]|t b H]; subst.
    + now destruct N.
    + pose proof (u64_accepts md z [0x53; z] (WUL_8 z H) rest) as E. cbn [app] in E |- *. rewrite decode_cons in E. rewrite decode_cons. unfold descriptor_dec.
      cbn [FC_SMALLULONG Z.eqb Pos.eqb]. now rewrite E.
    + pose proof (u64_accepts md z (0x80 :: be8 z) (WUL_64 z H) rest) as E. cbn [app] in E. cbn [app]. rewrite decode_cons in E. rewrite decode_cons. unfold descriptor_dec.
      cbn [FC_SMALLULONG FC_ULONG Z.eqb Pos.eqb]. now rewrite E.
    + apply decodes_app. apply descriptor_accepts; [discriminate|exact W].
Qed.
Lemma language_exact_for {T} (S : tspec T) L : language S L -> exact_for (fun _ => L) (s_dec S).
Proof.
  intros HL md bs v Hb. split.
  - intros R. apply reads_nil in R. apply (language_exact S L HL md bs [] v Hb) in R as (b & E & H). rewrite app_nil_r in E. now subst b.
  - intros H rest. now apply (language_all S L HL).
Qed.
Definition value_part (md : mode) (b : bytes) : Prop :=
  forall c v, bytes_ok c -> zlen c < zlen b -> (reads variant_dec md c v <-> read_value md v c).
Lemma part_language {T} (S : tspec T) L (f : T -> variant) md c b w : language S L -> byte_ok c -> bytes_ok b ->
  (forall rest, map_res f (s_dec S md (b ++ rest) c) = Ok (rest, w)) -> exists x, L x (c :: b) /\ w = f x.
Proof.
  intros HL Hc Hb H. pose proof (H []) as E. rewrite app_nil_r in E. apply map_res_ok in E as (x & E & ->).
  exists x. split; [|reflexivity]. apply (language_exact_for S L HL md (c :: b) x); [now constructor|].
  apply (lawful_reads (s_valid S)); [apply type_lawful; eapply language_type; exact HL|]. now rewrite decode_cons.
Qed.
Lemma variant_reads_value md b v : bytes_ok b -> value_part md b -> reads variant_dec md b v -> read_value md v b.
Proof.
  intros Hb IH R. destruct b as [|c b]; [now specialize (R [])|]. inversion Hb as [|? ? Hc Hi]; subst.
  assert (R' : forall rest, variant_body variant_dec md (b ++ rest) c = Ok (rest, v)).
  { intros rest. specialize (R rest). cbn [app] in R. rewrite decode_cons in R. now rewrite variant_dec_unfold in R. }
  clear R.
  assert (C : forall (f : bool) (x y : bytes -> res (bytes * variant)) (P : Prop),
    (f = true -> (forall rest, x rest = Ok (rest, v)) -> P) -> (f = false -> (forall rest, y rest = Ok (rest, v)) -> P) ->
    (forall rest, (if f then x rest else y rest) = Ok (rest, v)) -> P).
  { intros f x y P H1 H2 H. destruct f; [apply H1|apply H2]; auto. }
  unfold variant_body in R'.
  Ltac next_code R C := revert R; apply C; intros EC R; [apply Z.eqb_eq in EC|clear EC].
  Ltac by_const R := let Q := fresh in pose proof (R []) as Q; rewrite app_nil_r in Q; injection Q as -> <-.
  next_code R' C. { by_const R'. subst c. constructor. }
  next_code R' C. { destruct (part_language bool_S _ VBoolean md c b v la_bool Hc Hi R') as (x & W & ->). now constructor. }
  next_code R' C. { by_const R'. subst c. constructor. left. constructor. }
  next_code R' C. { by_const R'. subst c. constructor. left. constructor. }
  next_code R' C. { by_const R'. subst c. constructor. constructor. }
  next_code R' C. { by_const R'. subst c. constructor. constructor. }
  next_code R' C. { destruct (part_language u8_S _ VUbyte md c b v la_u8 Hc Hi R') as (x & [W ->] & ->). now constructor. }
  next_code R' C. { destruct (part_language u16_S _ VUshort md c b v la_u16 Hc Hi R') as (x & [W ->] & ->). now constructor. }
  next_code R' C. { destruct (part_language u32_S _ VUint md c b v la_u32 Hc Hi R') as (x & W & ->). now constructor. }
  next_code R' C. { destruct (part_language u64_S _ VUlong md c b v la_u64 Hc Hi R') as (x & W & ->). now constructor. }
  next_code R' C. { destruct (part_language i8_S _ VByte md c b v la_i8 Hc Hi R') as (x & [W ->] & ->). now constructor. }
  next_code R' C. { destruct (part_language i16_S _ VShort md c b v la_i16 Hc Hi R') as (x & [W ->] & ->). now constructor. }
  next_code R' C. { destruct (part_language i32_S _ VInt md c b v la_i32 Hc Hi R') as (x & W & ->). now constructor. }
  next_code R' C. { destruct (part_language i64_S _ VLong md c b v la_i64 Hc Hi R') as (x & W & ->). now constructor. }
  next_code R' C. { destruct (part_language u32_S _ VUint md c b v la_u32 Hc Hi R') as (x & W & ->). now constructor. }
  next_code R' C. { destruct (part_language u64_S _ VUlong md c b v la_u64 Hc Hi R') as (x & W & ->). now constructor. }
  next_code R' C. { destruct (part_language i32_S _ VInt md c b v la_i32 Hc Hi R') as (x & W & ->). now constructor. }
  next_code R' C. { destruct (part_language i64_S _ VLong md c b v la_i64 Hc Hi R') as (x & W & ->). now constructor. }
  next_code R' C. { destruct (part_language f32_S _ VFloat md c b v la_f32 Hc Hi R') as (x & [W ->] & ->). now constructor. }
  next_code R' C. { destruct (part_language f64_S _ VDouble md c b v la_f64 Hc Hi R') as (x & [W ->] & ->). now constructor. }
  next_code R' C. { destruct (part_language char_S _ VChar md c b v la_char Hc Hi R') as (x & [W ->] & ->). now constructor. }
  next_code R' C. { destruct (part_language datetime_S _ VTimestamp md c b v la_timestamp Hc Hi R') as (x & W & ->). now constructor. }
  next_code R' C. { destruct (part_language uuid_S _ VUuid md c b v la_uuid Hc Hi R') as (x & [W ->] & ->). now constructor. }
  next_code R' C. { destruct (part_language bin_S _ VBinary md c b v la_binary Hc Hi R') as (x & W & ->). now constructor. }
  next_code R' C. { destruct (part_language bin_S _ VBinary md c b v la_binary Hc Hi R') as (x & W & ->). now constructor. }
  next_code R' C. { destruct (part_language bstr_S _ _ md c b v la_string Hc Hi R') as (x & W & ->). now constructor. }
  next_code R' C. { destruct (part_language bstr_S _ _ md c b v la_string Hc Hi R') as (x & W & ->). now constructor. }
  next_code R' C. { destruct (part_language symbol_S _ VSymbol md c b v la_symbol Hc Hi R') as (x & (t & -> & W) & ->). now constructor. }
  next_code R' C. { destruct (part_language symbol_S _ VSymbol md c b v la_symbol Hc Hi R') as (x & (t & -> & W) & ->). now constructor. }
  next_code R' C. { by_const R'. subst c. rewrite <- (app_nil_r [FC_LIST0]). apply (RV_list md [] 0); [left; auto|constructor]. }
  assert (GL : (forall rest, map_res VList (list_dec variant_dec md (b ++ rest) c) = Ok (rest, v)) -> read_value md v (c :: b)).
  { intros H. pose proof (H []) as E. rewrite app_nil_r in E. apply map_res_ok in E as (l & E & ->).
    assert (RL : reads (list_dec variant_dec) md (c :: b) l).
    { intros rest. cbn [app]. rewrite decode_cons. specialize (H rest). apply map_res_ok in H as (l' & -> & [= ->]). reflexivity. }
    apply list_value in RL as (len & hdr & content & H1 & H2 & ->); [|exact Hb|exact IH]. econstructor; eassumption. }
  assert (GM : (forall rest, map_res VMap (map_dec variant_key variant_dec variant_dec md (b ++ rest) c) = Ok (rest, v)) -> read_value md v (c :: b)).
  { intros H. pose proof (H []) as E. rewrite app_nil_r in E. apply map_res_ok in E as (m & E & ->).
    assert (RM : reads (map_dec variant_key variant_dec variant_dec) md (c :: b) m).
    { intros rest. cbn [app]. rewrite decode_cons. specialize (H rest). apply map_res_ok in H as (l' & -> & [= ->]). reflexivity. }
    apply map_value in RM as (ps & n & hdr & content & junk & H1 & H2 & H3 & H4 & -> & ->); [|exact Hb|exact IH]. econstructor; eassumption. }
  next_code R' C. { auto. }
  next_code R' C. { auto. }
  next_code R' C. { auto. }
  next_code R' C. { auto. }
  next_code R' C; [|now specialize (R' [])].
  subst c. pose proof (R' []) as E. rewrite app_nil_r in E. apply bind_ok in E as [[i1 d] [E1 E]]. apply bind_ok in E as [[i2 w] [E2 E]].
  injection E as -> <-. pose proof E1 as E1'. apply descriptor_read in E1 as (label & -> & W); [|exact Hi]. apply app_ok in Hi as [HL H1].
  constructor; [exact W| |].
  - intros ->. cbn [app] in E1'. rewrite decode_cons in E1'. discriminate.
  - apply IH; [exact H1| |].
    + rewrite zlen_cons, zlen_app. pose proof (zlen_nonneg label). lia.
    + eapply lawful_reads; [exact (type_lawful variant_S md ty_variant)|exact E2].
Qed.
Lemma value_language {T} (S : tspec T) L (f : T -> variant) md x c r : language S L -> L x (c :: r) ->
  (forall inp, variant_body variant_dec md inp c = map_res f (s_dec S md inp c)) -> reads variant_dec md (c :: r) (f x).
Proof.
  intros HL W H rest. pose proof (language_all S L HL md x (c :: r) rest W) as E. cbn [app] in *. rewrite decode_cons in E. rewrite decode_cons.
  rewrite variant_dec_unfold, H, E. reflexivity.
Qed.
Lemma value_reads md b v : bytes_ok b -> value_part md b -> read_value md v b -> reads variant_dec md b v.
Proof.
  intros Hb IH R. inversion R; subst.
  - intros rest. cbn [app]. now rewrite decode_cons, variant_dec_unfold.
  - destruct H as [[]|[-> (x & Hx & ->)]]; try (apply (value_language bool_S _ VBoolean md _ _ _ la_bool); [left; constructor|reflexivity]).
    apply (value_language bool_S _ VBoolean md _ _ _ la_bool); [right; eauto|reflexivity].
  - apply (value_language u8_S _ VUbyte md _ _ _ la_u8); [now split|reflexivity].
  - apply (value_language u16_S _ VUshort md _ _ _ la_u16); [now split|reflexivity].
  - destruct H; apply (value_language u32_S _ VUint md _ _ _ la_u32); try reflexivity; now constructor.
  - destruct H; apply (value_language u64_S _ VUlong md _ _ _ la_u64); try reflexivity; now constructor.
  - apply (value_language i8_S _ VByte md _ _ _ la_i8); [now split|reflexivity].
  - apply (value_language i16_S _ VShort md _ _ _ la_i16); [now split|reflexivity].
  - destruct H; apply (value_language i32_S _ VInt md _ _ _ la_i32); try reflexivity; now constructor.
  - destruct H; apply (value_language i64_S _ VLong md _ _ _ la_i64); try reflexivity; now constructor.
  - apply (value_language f32_S _ VFloat md _ _ _ la_f32); [now split|reflexivity].
  - apply (value_language f64_S _ VDouble md _ _ _ la_f64); [now split|reflexivity].
  - apply (value_language char_S _ VChar md _ _ _ la_char); [now split|reflexivity].
  - pose proof H as W. destruct H as (ms & _ & -> & _). apply (value_language datetime_S _ VTimestamp md _ _ _ la_timestamp); [exact W|reflexivity].
  - apply (value_language uuid_S _ VUuid md _ _ _ la_uuid); [now split|reflexivity].
  - pose proof H as W. destruct H as [_ H]. inversion H; subst; apply (value_language bin_S _ VBinary md _ _ _ la_binary); try reflexivity; exact W.
  - pose proof H as W. destruct H as [_ H]. inversion H; subst; apply (value_language bstr_S _ (fun s => VString (SByteStr s)) md _ _ _ la_string); try reflexivity; exact W.
  - pose proof H as W. destruct H as [_ H]. inversion H; subst; apply (value_language symbol_S _ VSymbol md _ _ _ la_symbol); try reflexivity; eexists; (split; [reflexivity|exact W]).
  - assert (RL : reads (list_dec variant_dec) md (hdr ++ content) l) by (apply list_value; [exact Hb|exact IH|exists len, hdr, content; auto]).
    intros rest. specialize (RL rest).
    destruct H as [(Hn & -> & ->)|[(Hn & HS & ->)|(Hn & HS & ->)]]; cbn [app] in *; rewrite decode_cons in RL; rewrite decode_cons, variant_dec_unfold.
    + assert (l = []) as -> by (destruct l; [reflexivity|rewrite zlen_cons in Hn; pose proof (zlen_nonneg l); lia]).
      inversion H0; subst. reflexivity.
    + change (map_res VList (list_dec variant_dec md (((len + 1) mod 2 ^ 8 :: zlen l :: content ++ rest)) 0xc0) = Ok (rest, VList l)). now rewrite RL.
    + change (map_res VList (list_dec variant_dec md (((be4 ((len + 4) mod 2 ^ 32) ++ be4 (zlen l)) ++ content) ++ rest) 0xd0) = Ok (rest, VList l)). now rewrite RL.
  - assert (RM : reads (map_dec variant_key variant_dec variant_dec) md (hdr ++ content ++ junk) (entries_of variant_eqb ps))
      by (apply map_value; [exact Hb|exact IH|exists ps, n, hdr, content, junk; repeat (split; [assumption|]); split; reflexivity]).
    intros rest. specialize (RM rest).
    destruct H as [(Hn & HS & ->)|(Hn & HS & ->)]; cbn [app] in *; rewrite decode_cons in RM; rewrite decode_cons, variant_dec_unfold.
    + match type of RM with map_dec _ _ _ _ ?i _ = _ => change (map_res VMap (map_dec variant_key variant_dec variant_dec md i 0xc1) = Ok (rest, VMap (entries_of variant_eqb ps))) end.
      now rewrite RM.
    + match type of RM with map_dec _ _ _ _ ?i _ = _ => change (map_res VMap (map_dec variant_key variant_dec variant_dec md i 0xd1) = Ok (rest, VMap (entries_of variant_eqb ps))) end.
      now rewrite RM.
  - inversion Hb as [|? ? Hc Hi]; subst. apply app_ok in Hi as [HL H2].
    assert (RD : reads descriptor_dec md label d) by (apply descriptor_exact; auto).
    assert (RV : reads variant_dec md bs v0).
    { apply IH; auto. rewrite zlen_cons, zlen_app. pose proof (zlen_nonneg label). lia. }
    intros rest. cbn [app]. rewrite decode_cons, variant_dec_unfold. rewrite <- app_assoc.
    match goal with |- variant_body _ _ ?i _ = _ =>
      change (('(inp1, d0) <- decode descriptor_dec md i ;; '(inp2, v) <- decode variant_dec md inp1 ;; Ok (inp2, VDescribed d0 v)) = Ok (rest, VDescribed d v0)) end.
    rewrite (RD (bs ++ rest)). cbn [bind]. rewrite (RV rest). reflexivity.
Qed.
Lemma variant_exact : exact_for read_value variant_dec.
Proof.
  intros md b. assert (H : forall n b v, bytes_ok b -> zlen b <= Z.of_nat n -> (reads variant_dec md b v <-> read_value md v b)).
  { induction n as [|n IH]; intros c v Hc Hn.
    - destruct c; [|rewrite zlen_cons in Hn; pose proof (zlen_nonneg c); lia]. split; intros R; [now specialize (R [])|].
      apply (value_reads md [] v Hc); [|exact R]. intros e w He Hl. pose proof (zlen_nonneg e). rewrite zlen_nil in Hl. lia.
    - assert (VP : value_part md c) by (intros e w He Hl; apply IH; [exact He|lia]).
      split; [now apply variant_reads_value|now apply value_reads]. }
  intros v Hb. apply (H (length b)); [exact Hb|]. unfold zlen. lia.
Qed.

(** ** Containers *)
Lemma option_exact {T} (S : tspec T) G : amqp_type S -> ~ In 0x40 (s_codes S) -> exact_for G (s_dec S) ->
  exact_for (fun md o bs => match o with Some x => G md x bs | None => bs = [0x40] end) (s_dec (option_S S)).
Proof.
  intros TS N X md bs o Hb. split.
  - intros R. destruct bs as [|c b]; [now specialize (R [])|]. inversion Hb as [|? ? Hc Hi]; subst.
    assert (R' : forall rest, option_dec (s_dec S) md (b ++ rest) c = Ok (rest, o)).
    { intros rest. specialize (R rest). cbn [app] in R. now rewrite decode_cons in R. }
    unfold option_dec in R'. destruct (Z.eqb_spec c FC_NULL) as [->|NC].
    + pose proof (R' []) as E. rewrite app_nil_r in E. injection E as -> <-. reflexivity.
    + pose proof (R' []) as E. apply map_res_ok in E as (x & _ & ->). apply (exact_cons G (s_dec S) X md c b x Hc Hi). intros rest.
      specialize (R' rest). apply map_res_ok in R' as (y & -> & [= ->]). reflexivity.
  - intros H rest. destruct o as [x|].
    + destruct bs as [|c b]; [now apply (exact_nonempty G (s_dec S) X) in H|]. inversion Hb as [|? ? Hc Hi]; subst. cbn [app]. rewrite decode_cons.
      pose proof (proj2 (exact_cons G (s_dec S) X md c b x Hc Hi) H) as E.
      change (option_dec (s_dec S) md (b ++ rest) c = Ok (rest, Some x)). unfold option_dec. destruct (Z.eqb_spec c FC_NULL) as [->|NC].
      * specialize (E []). rewrite (g_reject S (type_good S TS)) in E by exact N. discriminate.
      * now rewrite E.
    + subst bs. cbn [app]. rewrite decode_cons. reflexivity.
Qed.
Lemma map_exact {K V} (KO : key K) (SK : tspec K) (SV : tspec V) GK GV : key_equivalence KO -> amqp_type SK -> amqp_type SV ->
  exact_for GK (s_dec SK) -> exact_for GV (s_dec SV) -> exact_for (fun md => read_map KO md (GK md) (GV md)) (s_dec (map_S KO SK SV)).
Proof.
  intros KE TK TV XK XV md bs m Hb.
  assert (LK : lawful any (decode (s_dec SK) md)) by (apply (lawful_weaken (s_valid SK)); [easy|now apply type_lawful]).
  assert (LV : lawful any (decode (s_dec SV) md)) by (apply (lawful_weaken (s_valid SV)); [easy|now apply type_lawful]).
  split.
  - intros R. apply reads_nil in R. destruct (map_dec_read KO (s_dec SK) (s_dec SV) md LK LV _ _ _ Hb R) as (hdr & n & ps & content & junk & E & H1 & H2 & H3 & H4 & ->).
    rewrite app_nil_r in E. subst bs. exists ps. split; [|split; [exact H4|now apply insert_all_entries]].
    exists n, hdr, content, junk. split; [exact H1|]. split; [exact H2|]. split; [|reflexivity].
    apply app_ok in Hb as [_ Hb]. apply app_ok in Hb as [Hb _].
    apply (pairs_convert (s_dec SK) (s_dec SV) md); auto.
  - intros (ps & (n & hdr & content & junk & H1 & H2 & H3 & ->) & H4 & ->) rest. rewrite <- !app_assoc. rewrite <- (insert_all_entries KO KE ps H4).
    apply (map_dec_accepts KO (s_dec SK) (s_dec SV) md hdr n); auto.
    apply app_ok in Hb as [_ Hb]. apply app_ok in Hb as [Hb _]. apply (pairs_convert (s_dec SK) (s_dec SV) md) in H3; auto.
Qed.
Lemma vecmap_accepts md hdr n ps content junk rest : map_header md n (zlen (content ++ junk)) hdr -> zlen ps = n / 2 ->
  reads_pairs str_dec variant_dec md ps content -> decode vecmap_dec md (hdr ++ content ++ junk ++ rest) = Ok (rest, ps).
Proof.
  intros MH HL HR.
  assert (Key : slice_to (content ++ junk ++ rest) (zlen (content ++ junk)) = Ok (content ++ junk) /\
    zdrop (zlen (content ++ junk)) (content ++ junk ++ rest) = rest).
  { rewrite app_assoc. unfold slice_to. rewrite (zlen_app (content ++ junk)). pose proof (zlen_nonneg rest).
    destruct (Z.ltb_spec (zlen (content ++ junk) + zlen rest) (zlen (content ++ junk))); [lia|].
    rewrite ztake_app, zdrop_app by reflexivity. easy. }
  destruct Key as [Key1 Key2].
  assert (Loop : loop_n (n / 2) (vecmap_step (decode str_dec md) (decode variant_dec md)) (content ++ junk, []) = Ok (junk, ps)).
  { rewrite <- HL, loop_n_iter. unfold zlen. rewrite Nat2Z.id. now apply vecmap_reads_iter. }
  destruct MH as [(Hn & S & ->)|(Hn & S & ->)]; cbn [app]; rewrite decode_cons.
  - change (vecmap_dec md ((zlen (content ++ junk) + 1) mod 2 ^ 8 :: n :: content ++ junk ++ rest) FC_MAP8 = Ok (rest, ps)).
    unfold vecmap_dec, decode_map_header. change (FC_MAP8 =? FC_MAP8) with true. cbn iota. rewrite compound8_header by exact S.
    cbn [bind ch_size ch_count]. rewrite Key1. cbn [bind]. etransitivity; [apply (bind_eq _ _ _ Loop)|]. cbn beta iota. now rewrite Key2.
  - rewrite <- app_assoc.
    change (vecmap_dec md (be4 ((zlen (content ++ junk) + 4) mod 2 ^ 32) ++ be4 n ++ content ++ junk ++ rest) FC_MAP32 = Ok (rest, ps)).
    unfold vecmap_dec, decode_map_header. change (FC_MAP32 =? FC_MAP8) with false. change (FC_MAP32 =? FC_MAP32) with true.
    cbn iota. rewrite compound32_header by auto.
    cbn [bind ch_size ch_count]. rewrite Key1. cbn [bind]. etransitivity; [apply (bind_eq _ _ _ Loop)|]. cbn beta iota. now rewrite Key2.
Qed.
Lemma vecmap_exact : exact_for (fun md => read_entries md (s_wire str_S) (read_value md)) (s_dec vecmap_S).
Proof.
  intros md bs m Hb.
  assert (XK : forall c k, bytes_ok c -> (reads str_dec md c k <-> s_wire str_S k c)) by (intros; now apply (language_exact_for str_S _ la_str md)).
  assert (XV : forall c k, bytes_ok c -> (reads variant_dec md c k <-> read_value md k c)) by (intros; now apply variant_exact).
  split.
  - intros R. apply reads_nil in R. destruct (vecmap_read md _ _ _ Hb R) as (hdr & n & content & junk & E & H1 & H2 & H3).
    rewrite app_nil_r in E. subst bs. exists n, hdr, content, junk. split; [exact H1|]. split; [exact H2|]. split; [|reflexivity].
    apply app_ok in Hb as [_ Hb]. apply app_ok in Hb as [Hb _]. apply (pairs_convert str_dec variant_dec md); auto.
  - intros (n & hdr & content & junk & H1 & H2 & H3 & ->) rest. rewrite <- !app_assoc. apply (vecmap_accepts md hdr n m); auto.
    apply app_ok in Hb as [_ Hb]. apply app_ok in Hb as [Hb _]. apply (pairs_convert str_dec variant_dec md) in H3; auto.
Qed.
Lemma list_exact : exact_for (fun md => read_list md (read_value md)) (s_dec list_S).
Proof. intros md bs l Hb. apply (list_value md bs l Hb). intros c v Hc _. now apply variant_exact. Qed.
Lemma vec_exact {T} A width (S : tspec T) G : element A width S -> exact_for G (s_dec S) ->
  exact_for (fun md => read_array md (G md)) (vec_dec (s_dec S)).
Proof.
  intros EL X md bs l Hb. split.
  - intros R. apply reads_nil in R. destruct (vec_read A width S EL md _ _ _ Hb R) as (hdr & len & code & content & E & H1 & H2).
    rewrite app_nil_r in E. subst bs. exists len, hdr, code, content. split; [exact H1|]. split; [|reflexivity].
    apply app_ok in Hb as [_ Hb]. inversion Hb; subst. apply (seq_convert (fun i => s_dec S md i code)); auto. intros b v Hc _. now apply exact_cons.
  - intros (len & hdr & code & content & H1 & H2 & ->) rest. rewrite <- app_assoc. cbn [app]. apply (vec_accepts_any_size (s_dec S) md l len); auto.
    apply app_ok in Hb as [_ Hb]. inversion Hb; subst. apply (seq_convert (fun i => s_dec S md i code)) in H2; auto. intros b v Hc _. now apply exact_cons.
Qed.
Lemma multiple_exact {T} A width (S : tspec T) G : element A width S -> ~ In 0xe0 (s_codes S) -> ~ In 0xf0 (s_codes S) ->
  exact_for G (s_dec S) ->
  exact_for (fun md l bs => read_array md (G md) l bs \/ exists x, l = [x] /\ G md x bs) (s_dec (multiple_S A width S)).
Proof.
  intros EL N1 N2 X md bs l Hb. pose proof (ge_good _ _ _ (element_good _ _ _ EL)) as GS. split.
  - intros R. destruct bs as [|c b]; [now specialize (R [])|]. inversion Hb as [|? ? Hc Hi]; subst.
    assert (R' : forall rest, multiple_dec (s_dec S) md (b ++ rest) c = Ok (rest, l)).
    { intros rest. specialize (R rest). cbn [app] in R. now rewrite decode_cons in R. }
    unfold multiple_dec in R'. destruct ((c =? FC_ARRAY8) || (c =? FC_ARRAY32)).
    + left. apply (vec_exact A width S G EL X); [exact Hb|]. intros rest. cbn [app]. rewrite decode_cons. apply R'.
    + right. pose proof (R' []) as E. rewrite app_nil_r in E. apply bind_ok in E as [[i x] [E1 E2]]. injection E2 as -> <-. exists x. split; [reflexivity|].
      apply (exact_cons G (s_dec S) X md c b x Hc Hi). intros rest. specialize (R' rest).
      apply bind_ok in R' as [[i x'] [-> E2]]. now injection E2 as -> ->.
  - intros [H|(x & -> & H)] rest.
    + pose proof H as (len & hdr & code & content & H1 & _ & E). apply (vec_exact A width S G EL X) in H; [|exact Hb]. specialize (H rest).
      assert (HC : exists c b, bs = c :: b /\ (c = 0xe0 \/ c = 0xf0)) by (destruct H1 as [(_ & _ & ->)|(_ & _ & ->)]; subst bs; do 2 eexists; (split; [reflexivity|auto])).
      destruct HC as (c & b & -> & HC). cbn [app] in *. rewrite decode_cons in H. rewrite decode_cons.
      change (multiple_dec (s_dec S) md (b ++ rest) c = Ok (rest, l)). unfold multiple_dec.
      replace ((c =? FC_ARRAY8) || (c =? FC_ARRAY32)) with true; [exact H|]. destruct HC as [->| ->]; reflexivity.
    + destruct bs as [|c b]; [now apply (exact_nonempty G (s_dec S) X) in H|]. inversion Hb as [|? ? Hc Hi]; subst.
      pose proof (proj2 (exact_cons G (s_dec S) X md c b x Hc Hi) H) as E. cbn [app]. rewrite decode_cons.
      change (multiple_dec (s_dec S) md (b ++ rest) c = Ok (rest, [x])). unfold multiple_dec.
      destruct (Z.eqb_spec c FC_ARRAY8) as [->|]; [specialize (E []); rewrite (g_reject S GS) in E by exact N1; discriminate|].
      destruct (Z.eqb_spec c FC_ARRAY32) as [->|]; [specialize (E []); rewrite (g_reject S GS) in E by exact N2; discriminate|].
      cbn [orb]. now rewrite E.
Qed.

(** ** Fields, bodies and unions *)
Definition fields_exact {R} (F : fields R) (G : mode -> Z -> R -> bytes -> Prop) : Prop :=
  good_fields F -> forall md n b junk a, bytes_ok b -> 0 <= n ->
  ((exists n', dec_fields F md (b, n) = Ok ((junk, n'), a)) <-> exists c, b = c ++ junk /\ G md n a c).
Definition body_exact {T} (D : dspec T) (G : mode -> T -> bytes -> Prop) : Prop :=
  (forall md, lawful any (d_inner D md)) /\
  forall md bs v, bytes_ok bs -> ((forall rest, d_inner D md (bs ++ rest) = Ok (rest, v)) <-> G md v bs).
Definition union_exact {T} (alts : list (alternative T)) (G : mode -> T -> bytes -> Prop) : Prop :=
  Forall (fun a => forall md, lawful any (d_inner (a_D a) md)) alts /\
  forall md v bs, bytes_ok bs -> (G md v bs <-> exists a x label body, In a alts /\ v = a_inj a x /\
    wire_label (d_code (a_D a)) (d_name (a_D a)) label /\ (forall rest, d_inner (a_D a) md (body ++ rest) = Ok (rest, x)) /\
    bs = 0x00 :: label ++ body).

Lemma mandatory_exact {T R} name (S : tspec T) (r : fields R) GS G : amqp_type S -> exact_for GS (s_dec S) -> fields_exact r G ->
  fields_exact (FReq name S r) (fun md n a bs => 0 < n /\ exists e b, GS md (fst a) e /\ G md (n - 1) (snd a) b /\ bs = e ++ b).
Proof.
  intros TS X XR [_ GR] md n b junk [x a] Hb Hn. cbn [dec_fields fst snd]. split.
  - intros [n' E]. apply bind_ok in E as [[[b1 n1] x1] [E1 E]]. apply bind_ok in E as [[s2 a1] [E2 E]]. injection E as -> -> ->.
    unfold req_field in E1. destruct (Z.ltb_spec 0 n); [|discriminate]. apply bind_ok in E1 as [[b2 x2] [E1 E3]]. injection E3 as -> <- ->.
    apply (exact_decode S GS TS X md) in E1 as (e & -> & He); [|exact Hb]. apply app_ok in Hb as [_ Hb].
    destruct (proj1 (XR GR md (n - 1) b1 junk a Hb ltac:(lia))) as (c & -> & Hc); [now exists n'|].
    exists (e ++ c). split; [now rewrite app_assoc|]. split; [lia|]. now exists e, c.
  - intros (c & -> & Hn0 & e & c' & He & Hc & ->). rewrite <- app_assoc in *. pose proof Hb as Hb'. apply app_ok in Hb' as [_ Hb'].
    destruct (proj2 (XR GR md (n - 1) (c' ++ junk) junk a Hb' ltac:(lia))) as (n' & E); [now exists c'|].
    exists n'. rewrite req_field_more by lia.
    assert (decode (s_dec S) md (e ++ c' ++ junk) = Ok (c' ++ junk, x)) as E1 by (apply (exact_decode S GS TS X md); [exact Hb|now exists e]).
    change (c_D (s_codec S)) with (s_dec S). rewrite E1. cbn [bind]. etransitivity; [apply (bind_eq _ _ _ E)|]. reflexivity.
Qed.
Lemma optional_exact {T R} name (S : tspec T) (r : fields R) GS G : amqp_type S -> exact_for GS (s_dec S) -> fields_exact r G ->
  fields_exact (FOpt name S r) (fun md n a bs =>
      (0 < n /\ exists e b, match fst a with Some x => GS md x e | None => e = [0x40] end /\ G md (n - 1) (snd a) b /\ bs = e ++ b) \/
      (n = 0 /\ fst a = None /\ G md 0 (snd a) bs)).
Proof.
  intros TS X XR [[_ N] GR] md n b junk [x a] Hb Hn. cbn [dec_fields fst snd].
  pose proof (exact_decode (option_S S) _ (ty_option _ S TS N) (option_exact S GS TS N X) md) as XO. cbn beta in XO. split.
  - intros [n' E]. apply bind_ok in E as [[[b1 n1] x1] [E1 E]]. apply bind_ok in E as [[s2 a1] [E2 E]]. injection E as -> -> ->.
    unfold opt_field in E1. destruct (Z.ltb_spec 0 n).
    + apply bind_ok in E1 as [[b2 x2] [E1 E3]]. injection E3 as -> <- ->. apply XO in E1 as (e & -> & He); [|exact Hb]. apply app_ok in Hb as [_ Hb].
      destruct (proj1 (XR GR md (n - 1) b1 junk a Hb ltac:(lia))) as (c & -> & Hc); [now exists n'|].
      exists (e ++ c). split; [now rewrite app_assoc|]. left. split; [lia|]. now exists e, c.
    + injection E1 as <- <- <-. assert (n = 0) as -> by lia.
      destruct (proj1 (XR GR md 0 b junk a Hb ltac:(lia))) as (c & -> & Hc); [now exists n'|].
      exists c. split; [reflexivity|]. now right.
  - intros (c & -> & [(Hn0 & e & c' & He & Hc & ->)|(-> & -> & Hc)]).
    + rewrite <- app_assoc in *. pose proof Hb as Hb'. apply app_ok in Hb' as [_ Hb'].
      destruct (proj2 (XR GR md (n - 1) (c' ++ junk) junk a Hb' ltac:(lia))) as (n' & E); [now exists c'|].
      exists n'. rewrite opt_field_more by lia.
      assert (decode (s_dec (option_S S)) md (e ++ c' ++ junk) = Ok (c' ++ junk, x)) as E1 by (apply XO; [exact Hb|now exists e]).
      change (option_dec (c_D (s_codec S))) with (s_dec (option_S S)). rewrite E1. cbn [bind]. etransitivity; [apply (bind_eq _ _ _ E)|]. reflexivity.
    + destruct (proj2 (XR GR md 0 (c ++ junk) junk a Hb ltac:(lia))) as (n' & E); [now exists c|]. exists n'.
      change (opt_field (s_codec S) md (c ++ junk, 0)) with (Ok ((c ++ junk, 0), @None T)). cbn [bind].
      etransitivity; [apply (bind_eq _ _ _ E)|]. reflexivity.
Qed.
Lemma default_exact {T R} name (S : tspec T) dflt (r : fields R) GS G : amqp_type S -> exact_for GS (s_dec S) -> fields_exact r G ->
  fields_exact (FDef name S dflt r) (fun md n a bs =>
      (0 < n /\ exists e b, (GS md (fst a) e \/ (fst a = dflt /\ e = [0x40])) /\ G md (n - 1) (snd a) b /\ bs = e ++ b) \/
      (n = 0 /\ fst a = dflt /\ G md 0 (snd a) bs)).
Proof.
  intros TS X XR [[_ [N _]] GR] md n b junk [x a] Hb Hn. cbn [dec_fields fst snd].
  pose proof (exact_decode (option_S S) _ (ty_option _ S TS N) (option_exact S GS TS N X) md) as XO. cbn beta in XO. split.
  - intros [n' E]. apply bind_ok in E as [[[b1 n1] x1] [E1 E]]. apply bind_ok in E as [[s2 a1] [E2 E]]. injection E as -> -> ->.
    unfold def_field in E1. destruct (Z.ltb_spec 0 n).
    + apply bind_ok in E1 as [[b2 o] [E1 E3]]. injection E3 as -> <- <-. apply XO in E1 as (e & -> & He); [|exact Hb]. apply app_ok in Hb as [_ Hb].
      destruct (proj1 (XR GR md (n - 1) b1 junk a Hb ltac:(lia))) as (c & -> & Hc); [now exists n'|].
      exists (e ++ c). split; [now rewrite app_assoc|]. left. split; [lia|]. exists e, c. split; [|easy]. destruct o; [now left|now right].
    + injection E1 as <- <- <-. assert (n = 0) as -> by lia.
      destruct (proj1 (XR GR md 0 b junk a Hb ltac:(lia))) as (c & -> & Hc); [now exists n'|].
      exists c. split; [reflexivity|]. now right.
  - intros (c & -> & [(Hn0 & e & c' & He & Hc & ->)|(-> & -> & Hc)]).
    + rewrite <- app_assoc in *. pose proof Hb as Hb'. apply app_ok in Hb' as [_ Hb'].
      destruct (proj2 (XR GR md (n - 1) (c' ++ junk) junk a Hb' ltac:(lia))) as (n' & E); [now exists c'|].
      exists n'. rewrite def_field_more by lia.
      assert (exists o, decode (s_dec (option_S S)) md (e ++ c' ++ junk) = Ok (c' ++ junk, o) /\ match o with Some y => y | None => dflt end = x) as (o & E1 & Eo).
      { destruct He as [He|[-> ->]]; [exists (Some x)|exists None]; (split; [|reflexivity]); (apply XO; [exact Hb|]); [now exists e|now exists [0x40]]. }
      change (option_dec (c_D (s_codec S))) with (s_dec (option_S S)). rewrite E1. cbn [bind]. subst x.
      etransitivity; [apply (bind_eq _ _ _ E)|]. reflexivity.
    + destruct (proj2 (XR GR md 0 (c ++ junk) junk a Hb ltac:(lia))) as (n' & E); [now exists c|]. exists n'.
      change (def_field (s_codec S) dflt md (c ++ junk, 0)) with (Ok ((c ++ junk, 0), dflt)). cbn [bind].
      etransitivity; [apply (bind_eq _ _ _ E)|]. reflexivity.
Qed.
Lemma open_list_any md n content hdr rest : list_header md n (zlen content) hdr ->
  open_list md (hdr ++ content ++ rest) = Ok ((content, n), rest).
Proof.
  intros H. pose proof (zlen_nonneg content). pose proof (zlen_nonneg rest). unfold open_list, decode_format_code.
  destruct H as [(-> & HL & ->)|[(Hn & S & ->)|(Hn & S & ->)]]; cbn [app]; rewrite read_u8_cons; cbn [bind]; unfold decode_list_header.
  - change (0x45 =? FC_LIST0) with true. cbn [bind ch_size ch_count]. destruct content; [|rewrite zlen_cons in HL; pose proof (zlen_nonneg content); lia].
    cbn [app]. rewrite check_len_true by lia. cbn [bind]. now rewrite ztake_0, zdrop_0.
  - change (0xc0 =? FC_LIST0) with false. change (0xc0 =? FC_LIST8) with true. cbn iota. rewrite compound8_header by exact S. cbn [bind ch_size ch_count].
    rewrite check_len_true by (rewrite zlen_app; lia). cbn [bind]. now rewrite ztake_app, zdrop_app.
  - change (0xd0 =? FC_LIST0) with false. change (0xd0 =? FC_LIST8) with false. change (0xd0 =? FC_LIST32) with true. cbn iota. rewrite <- app_assoc.
    rewrite compound32_header by auto. cbn [bind ch_size ch_count].
    rewrite check_len_true by (rewrite zlen_app; lia). cbn [bind]. now rewrite ztake_app, zdrop_app.
Qed.
Lemma list_header_count md n len hdr : list_header md n len hdr -> 0 <= n.
Proof. intros [(-> & _)|[([? _] & _)|([? _] & _)]]; lia. Qed.
Lemma composite_body_exact K G : In K all_composites -> fields_exact (k_fields K) G ->
  body_exact (composite_D K) (fun md v bs => exists n hdr content junk,
    list_header md n (zlen (content ++ junk)) hdr /\ G md n (k_to K v) content /\ bs = hdr ++ content ++ junk).
Proof.
  intros HK XF. destruct (all_composites_ok K HK) as [TR GF]. split.
  - intros md. apply (lawful_weaken (d_valid (composite_D K))); [easy|]. apply (gd_lawful _ (composite_good_D K TR GF)).
  - intros md bs v Hb. cbn [d_inner composite_D]. split.
    + intros R. specialize (R []). rewrite app_nil_r, (composite_inner_eq K md _ TR) in R. apply bind_ok in R as [[[w n] rem] [E1 R]].
      apply bind_ok in R as [x [E2 R]]. injection R as -> ->. apply bind_ok in E2 as [[[junk n'] a] [E2 E3]]. injection E3 as <-.
      apply open_list_window in E1 as (hdr & -> & H); [|exact Hb]. cbn [fst snd] in *. rewrite app_nil_r in Hb. apply app_ok in Hb as [_ Hb].
      pose proof (list_header_count _ _ _ _ H).
      destruct (proj1 (XF GF md n w junk a Hb ltac:(lia))) as (c & -> & Hc); [now exists n'|].
      exists n, hdr, c, junk. rewrite (tr_to_of K TR), app_nil_r. easy.
    + intros (n & hdr & content & junk & H & HG & ->) rest. rewrite (composite_inner_eq K md _ TR). rewrite <- app_assoc.
      etransitivity; [apply (bind_eq _ _ _ (open_list_any md n (content ++ junk) hdr rest H))|]. cbn beta iota.
      pose proof (list_header_count _ _ _ _ H). apply app_ok in Hb as [_ Hb].
      destruct (proj2 (XF GF md n (content ++ junk) junk (k_to K v) Hb ltac:(lia))) as (n' & E); [now exists content|].
      assert (E' : ('(_, a) <- dec_fields (k_fields K) md (content ++ junk, n) ;; Ok (k_of K a)) = Ok v).
      { etransitivity; [apply (bind_eq _ _ _ E)|]. cbn beta iota. now rewrite (tr_of_to K TR). }
      etransitivity; [apply (bind_eq _ _ _ E')|]. reflexivity.
Qed.
Lemma label_wire {T} (D : dspec T) d label : wire_descriptor d label -> labels D d -> wire_label (d_code D) (d_name D) label.
Proof. intros W L. destruct W as [u bs W|t bs W]; cbn [labels str_bytes] in L; subst; [now left|now right]. Qed.
Lemma composite_exact K G : In K all_composites -> body_exact (composite_D K) G ->
  exact_for (fun md v bs => exists label body, wire_label (k_code K) (k_name K) label /\ G md v body /\ bs = 0x00 :: label ++ body)
    (s_dec (composite_S K)).
Proof.
  intros HK [L X] md bs v Hb. split.
  - intros R. apply reads_nil in R. rewrite (composite_dec_eq K HK) in R. destruct bs as [|c i]; [discriminate|]. rewrite decode_cons in R.
    inversion Hb as [|? ? Hc Hi]; subst. unfold composite_dec, validate_code in R. destruct (Z.eqb_spec c FC_DESCRIBED) as [->|]; [|discriminate].
    cbn [bind] in R. apply bind_ok in R as [[i1 d] [E1 R]]. apply descriptor_read in E1 as (label & -> & W); [|exact Hi].
    change ((if matches (k_code K) (k_name K) d then k_inner K md i1 else Err (EInvalidDescriptor d)) = Ok ([], v)) in R.
    destruct (matches (k_code K) (k_name K) d) eqn:M; [|discriminate]. apply (matches_labels (composite_D K)) in M.
    exists label, i1. split; [exact (label_wire (composite_D K) d label W M)|]. split; [|reflexivity]. apply app_ok in Hi as [_ Hi].
    apply X; [exact Hi|]. destruct (L md _ _ _ R) as [(p & Ep & Hp) _]. rewrite app_nil_r in Ep. now subst p.
  - intros (label & body & W & HG & ->) rest. inversion Hb as [|? ? Hc Hi]; subst. apply app_ok in Hi as [_ Hi].
    apply (proj2 (X md body v Hi)) with (rest := rest) in HG. cbn [app]. rewrite <- app_assoc, (composite_labelled K md label _ HK W). exact HG.
Qed.
Lemma select_inv {T} (alts : list (alternative T)) md d inp rest v : union_select alts md d inp = Ok (rest, v) ->
  exists a x, In a alts /\ labels (a_D a) d /\ v = a_inj a x /\ d_inner (a_D a) md inp = Ok (rest, x).
Proof.
  induction alts as [|a r IH]; cbn [union_select]; [discriminate|]. destruct (matches (d_code (a_D a)) (d_name (a_D a)) d) eqn:M.
  - intros E. apply map_res_ok in E as (x & E & ->). apply matches_labels in M. exists a, x. repeat split; auto. now left.
  - intros E. destruct (IH E) as (b & x & H1 & H2 & H3 & H4). exists b, x. repeat split; auto. now right.
Qed.
Lemma union_decoder {T} (S : tspec T) alts : union_type S alts ->
  s_codes S = [0x00] /\ forall md i, decode (s_dec S) md (0x00 :: i) = ('(i1, d) <- decode descriptor_dec md i ;; union_select alts md d i1).
Proof.
  destruct 1; (split; [reflexivity|]); intros md i; rewrite decode_cons.
  - change (s_dec delivery_state_S) with delivery_state_dec. unfold delivery_state_dec. change (validate_code 0x00 FC_DESCRIBED) with (@Ok unit tt).
    cbn [bind]. apply bind_ext. intros [i1 []]; reflexivity.
  - change (s_dec outcome_S) with outcome_dec. unfold outcome_dec. change (validate_code 0x00 FC_DESCRIBED) with (@Ok unit tt).
    cbn [bind]. apply bind_ext. intros [i1 []]; reflexivity.
  - change (s_dec sasl_frame_body_S) with sasl_frame_body_dec. unfold sasl_frame_body_dec. change (validate_code 0x00 FC_DESCRIBED) with (@Ok unit tt).
    cbn [bind]. apply bind_ext. intros [i1 []]; reflexivity.
  - change (s_dec section_S) with section_dec. unfold section_dec. change (validate_code 0x00 FC_DESCRIBED) with (@Ok unit tt).
    cbn [bind]. apply bind_ext. intros [i1 []]; reflexivity.
Qed.
Lemma union_is_type {T} (S : tspec T) alts : union_type S alts -> amqp_type S. Proof. destruct 1; constructor. Qed.
Lemma union_type_exact {T} (S : tspec T) alts G : union_type S alts -> union_exact alts G -> exact_for G (s_dec S).
Proof.
  intros U [L X] md bs v Hb. rewrite (X md v bs Hb). destruct (union_decoder S alts U) as [HC HD]. split.
  - intros R. apply reads_nil in R. destruct bs as [|c i]; [discriminate|]. inversion Hb as [|? ? Hc Hi]; subst.
    assert (c = 0x00) as ->.
    { destruct (Z.eq_dec c 0x00) as [|N]; [assumption|]. rewrite decode_cons in R.
      rewrite (g_reject S (type_good S (union_is_type S alts U))) in R; [discriminate|]. rewrite HC. intros [E|[]]. congruence. }
    rewrite HD in R. apply bind_ok in R as [[i1 d] [E1 R]]. apply descriptor_read in E1 as (label & -> & W); [|exact Hi].
    apply select_inv in R as (a & x & Ha & La & -> & R). exists a, x, label, i1. split; [exact Ha|]. split; [reflexivity|].
    split; [exact (label_wire (a_D a) d label W La)|]. split; [|reflexivity]. rewrite Forall_forall in L.
    destruct (L a Ha md _ _ _ R) as [(p & Ep & Hp) _]. rewrite app_nil_r in Ep. now subst p.
  - intros (a & x & label & body & Ha & -> & W & R & ->) rest. cbn [app]. rewrite <- app_assoc, (union_named S alts U md a label _ Ha W).
    now rewrite R.
Qed.

Theorem grammar_exact :
  (forall T (S : tspec T) G, grammar S G -> amqp_type S /\ exact_for G (s_dec S)) /\
  (forall R (F : fields R) G, field_grammar F G -> fields_exact F G) /\
  (forall T (D : dspec T) G, body_grammar D G -> body_exact D G) /\
  (forall T (alts : list (alternative T)) G, union_grammar alts G -> union_exact alts G).
Proof.
  apply (grammar_mutind (fun T S G => amqp_type S /\ exact_for G (s_dec S)) (@fields_exact) (@body_exact) (@union_exact)).
  - intros T S L HL. split; [now apply language_type in HL|now apply language_exact_for].
  - split; [constructor|exact variant_exact].
  - split; [constructor|exact list_exact].
  - split; [constructor|exact vecmap_exact].
  - intros T S G _ [TS X] N. split; [now constructor|now apply option_exact].
  - intros K V KO SK SV GK GV KE _ [TK XK] _ [TV XV]. split; [now constructor|now apply map_exact].
  - intros T A width S G EL _ [TS X]. split; [now constructor|exact (vec_exact A width S G EL X)].
  - intros T A width S G EL N1 N2 _ [TS X]. split; [now constructor|now apply multiple_exact].
  - intros K G HK _ X. split; [now constructor|now apply composite_exact].
  - intros T S alts G U _ X. split; [exact (union_is_type S alts U)|exact (union_type_exact S alts G U X)].
  - intros _ md n b junk []. cbn [dec_fields]. intros Hb Hn. split.
    + intros [n' E]. injection E as -> _. now exists [].
    + intros (c & -> & ->). now exists n.
  - intros T R name S r GS G _ [TS X] _ XR. now apply mandatory_exact.
  - intros T R name S r GS G _ [TS X] _ XR. now apply optional_exact.
  - intros T R name S dflt r GS G _ [TS X] _ XR. now apply default_exact.
  - intros K G HK _ X. now apply composite_body_exact.
  - intros T code name S size enc inner G HI _ [TS X]. cbn [section_D d_inner]. split.
    + intros md. cbn [section_D d_inner]. eapply lawful_ext; [intros inp; symmetry; apply HI|].
      apply (lawful_weaken (s_valid S)); [easy|now apply type_lawful].
    + intros md bs v Hb. cbn [section_D d_inner]. rewrite <- (X md bs v Hb). unfold reads. split; intros R rest; specialize (R rest); now rewrite HI in *.
  - intros T. split; [constructor|]. intros md v bs _. split; [easy|]. intros (a & _ & _ & _ & [] & _).
  - intros T a r G GR _ [LA XA] _ [LR XR]. split; [now constructor|]. intros md v bs Hb. rewrite (XR md v bs Hb). split.
    + intros [(x & label & body & -> & W & HG & ->)|(b & x & label & body & H1 & H2)].
      * exists a, x, label, body. repeat split; auto; [now left|]. inversion Hb as [|? ? _ Hi]; subst. apply app_ok in Hi as [_ Hi]. now apply XA.
      * exists b, x, label, body. split; [now right|exact H2].
    + intros (b & x & label & body & [<-|H1] & H2 & H3 & H4 & ->).
      * left. exists x, label, body. repeat split; auto. inversion Hb as [|? ? _ Hi]; subst. apply app_ok in Hi as [_ Hi]. now apply XA.
      * right. exists b, x, label, body. now repeat split.
Qed.

(** ** Every type has a grammar *)
Definition has {T} (S : tspec T) : Prop := exists G, grammar S G.
Definition has_fields {R} (F : fields R) : Prop := exists G, field_grammar F G.
Definition has_body {T} (D : dspec T) : Prop := exists G, body_grammar D G.
Definition has_union {T} (alts : list (alternative T)) : Prop := exists G, union_grammar alts G.
Lemma has_simple {T} (S : tspec T) L : language S L -> has S. Proof. intros H. eexists. exact (gr_simple _ S L H). Qed.
Lemma has_option {T} (S : tspec T) : has S -> ~ In 0x40 (s_codes S) -> has (option_S S).
Proof. intros [G H] N. eexists. exact (gr_option _ S G H N). Qed.
Lemma has_map {K V} (KO : key K) (SK : tspec K) (SV : tspec V) : key_equivalence KO -> has SK -> has SV -> has (map_S KO SK SV).
Proof. intros KE [GK HK] [GV HV]. eexists. exact (gr_map _ _ KO SK SV GK GV KE HK HV). Qed.
Lemma has_vec {T} A width (S : tspec T) : element A width S -> has S -> has (vec_S A width S).
Proof. intros EL [G H]. eexists. exact (gr_vec _ A width S G EL H). Qed.
Lemma has_multiple {T} A width (S : tspec T) : element A width S -> ~ In 0xe0 (s_codes S) -> ~ In 0xf0 (s_codes S) -> has S -> has (multiple_S A width S).
Proof. intros EL N1 N2 [G H]. eexists. exact (gr_multiple _ A width S G EL N1 N2 H). Qed.
Lemma has_composite_body K : In K all_composites -> has_fields (k_fields K) -> has_body (composite_D K).
Proof. intros HK [G H]. eexists. exact (bg_composite K G HK H). Qed.
Lemma has_composite K : In K all_composites -> has_fields (k_fields K) -> has (composite_S K).
Proof. intros HK H. apply has_composite_body in H as [G H]; [|exact HK]. eexists. exact (gr_composite K G HK H). Qed.
Lemma has_section {T} code name (S : tspec T) size enc inner : (forall md inp, inner md inp = decode (s_dec S) md inp) -> has S ->
  has_body (section_D code name S size enc inner).
Proof. intros HI [G H]. eexists. exact (bg_section _ code name S size enc inner G HI H). Qed.
Lemma has_no_alternative {T} : has_union (@nil (alternative T)). Proof. eexists. exact (ug_nil T). Qed.
Lemma has_alternative {T} (a : alternative T) r : has_body (a_D a) -> has_union r -> has_union (a :: r).
Proof. intros [G H] [GR HR]. eexists. exact (ug_cons T a r G GR H HR). Qed.
Lemma has_union_type {T} (S : tspec T) alts : union_type S alts -> has_union alts -> has S.
Proof. intros U [G H]. eexists. exact (gr_union T S alts G U H). Qed.
Lemma has_nil : has_fields FNil. Proof. eexists. exact fg_nil. Qed.
Lemma has_req {T R} name (S : tspec T) (r : fields R) : has S -> has_fields r -> has_fields (FReq name S r).
Proof. intros [GS HS] [G H]. eexists. exact (fg_mandatory _ _ name S r GS G HS H). Qed.
Lemma has_opt {T R} name (S : tspec T) (r : fields R) : has S -> has_fields r -> has_fields (FOpt name S r).
Proof. intros [GS HS] [G H]. eexists. exact (fg_optional _ _ name S r GS G HS H). Qed.
Lemma has_def {T R} name (S : tspec T) dflt (r : fields R) : has S -> has_fields r -> has_fields (FDef name S dflt r).
Proof. intros [GS HS] [G H]. eexists. exact (fg_default _ _ name S dflt r GS G HS H). Qed.

Ltac not_code := let H := fresh in intros H; vm_compute in H; intuition discriminate.
Ltac listed := unfold all_composites; repeat (first [left; reflexivity|right]).
Ltac has_g :=
  match goal with
  | |- has variant_S => eexists; exact gr_variant
  | |- has list_S => eexists; exact gr_list
  | |- has vecmap_S => eexists; exact gr_vec_string_map
  | H : has ?S |- has ?S => exact H
  | |- has (option_S _) => apply has_option; [has_g|not_code]
  | |- has (map_S str_key _ _) => apply (has_map str_key); [exact str_key_equivalence|has_g|has_g]
  | |- has (map_S variant_key _ _) => apply (has_map variant_key); [exact variant_key_equivalence|has_g|has_g]
  | |- has (multiple_S _ _ _) => apply has_multiple; [constructor|not_code|not_code|has_g]
  | |- has (vec_S _ _ _) => apply has_vec; [constructor|has_g]
  | |- has (composite_S ?K) => apply (has_composite K); [listed|unfold K; cbn [k_fields]; has_f]
  | |- has delivery_state_S => apply (has_union_type _ _ un_delivery_state); unfold delivery_state_alts; has_u
  | |- has outcome_S => apply (has_union_type _ _ un_outcome); unfold outcome_alts; has_u
  | |- has sasl_frame_body_S => apply (has_union_type _ _ un_sasl_frame_body); unfold sasl_frame_body_alts; has_u
  | |- has section_S => apply (has_union_type _ _ un_section); unfold section_alts; has_u
  | |- has _ => eapply has_simple; constructor
  | |- has ?S => unfold S; has_g
  end
with has_f :=
  match goal with
  | |- has_fields FNil => exact has_nil
  | |- has_fields (FReq _ _ _) => apply has_req; [has_g|has_f]
  | |- has_fields (FOpt _ _ _) => apply has_opt; [has_g|has_f]
  | |- has_fields (FDef _ _ _ _) => apply has_def; [has_g|has_f]
  end
with has_u :=
  match goal with
  | |- has_union [] => exact has_no_alternative
  | |- has_union _ => apply has_alternative; [cbn [a_D];
      match goal with
      | |- has_body (composite_D ?K) => apply (has_composite_body K); [listed|unfold K; cbn [k_fields]; has_f]
      | |- has_body _ => apply has_section; [reflexivity|has_g]
      end|has_u]
  end.
Lemma composites_have K : In K all_composites -> has (composite_S K).
Proof. intros H. repeat (destruct H as [<-|H]; [has_g|]). destruct H. Qed.
Lemma unions_have {T} (S : tspec T) alts : union_type S alts -> has S.
Proof. destruct 1; has_g. Qed.

Lemma grammar_unambiguous {T} (S : tspec T) G md v w bs bs' rest rest' : grammar S G -> bytes_ok (bs ++ rest) ->
  G md v bs -> G md w bs' -> bs ++ rest = bs' ++ rest' -> v = w /\ bs = bs' /\ rest = rest'.
Proof.
  intros HG Hb H1 H2 E. destruct (proj1 grammar_exact _ S G HG) as [TS X].
  assert (D1 : decode (s_dec S) md (bs ++ rest) = Ok (rest, v)) by (apply (exact_decode S G TS X); [exact Hb|now exists bs]).
  assert (D2 : decode (s_dec S) md (bs ++ rest) = Ok (rest', w)) by (apply (exact_decode S G TS X); [exact Hb|now exists bs']).
  rewrite D1 in D2. injection D2 as <- <-. apply app_inv_tail in E. auto.
Qed.
Lemma grammar_decode {T} (S : tspec T) G : grammar S G -> forall md inp rest v, bytes_ok inp ->
  (decode (s_dec S) md inp = Ok (rest, v) <-> exists bs, inp = bs ++ rest /\ G md v bs).
Proof. intros HG. destruct (proj1 grammar_exact _ S G HG) as [TS X]. exact (exact_decode S G TS X). Qed.
Lemma grammar_unique {T} (S : tspec T) G1 G2 : grammar S G1 -> grammar S G2 -> forall md v bs, bytes_ok bs -> (G1 md v bs <-> G2 md v bs).
Proof.
  intros H1 H2 md v bs Hb. destruct (proj1 grammar_exact _ S G1 H1) as [_ X1]. destruct (proj1 grammar_exact _ S G2 H2) as [_ X2].
  now rewrite <- (X1 md bs v Hb), <- (X2 md bs v Hb).
Qed.
(** What the standard allows and the crate can represent is among what it reads. *)
Lemma grammar_standard {T} (S : tspec T) G : grammar S G -> forall md v bs, bytes_ok bs -> s_wire S v bs -> s_decodable S v -> G md v bs.
Proof.
  intros HG md v bs Hb W D. destruct (proj1 grammar_exact _ S G HG) as [TS X]. apply X; [exact Hb|]. exact (g_accepts S (type_good S TS) md v bs W D).
Qed.
