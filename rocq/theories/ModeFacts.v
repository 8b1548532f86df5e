(** Facts about the two ways to build the crate. *)

From Coq Require Import String.
From Verif Require Import Io Connection Reserve BaseFacts Utf8Spec Utf8Facts Valid Wire PrimFacts DecLaws EncLaws VariantFacts TypeSpec TypeFacts CompositeSpec
  CompositeFacts AllTypes AllTypesFacts CodecSpec EqFacts CodecFacts MapFacts ValueFacts ExactFacts CompositeReads MessageSpec MessageFacts FrameSpec
  FrameFacts FramingFacts GrammarFacts PanicFacts ReserveSpec ReserveFacts ErrorSpec ErrorFacts ModeSpec.
Import Io.
Open Scope string_scope.
Open Scope list_scope.
Open Scope Z_scope.

(** ** Where a short header may be *)
Lemma short_prefix a i : short i -> short (a ++ i).
Proof.
  intros (p & c & q & h & t & -> & H & K). exists (a ++ p), c, q, h, t. rewrite <- app_assoc. split; [reflexivity|]. split; [exact H|].
  destruct K as [K|[K|K]]; [now left|right; left|right; right]; apply in_or_app; now right.
Qed.
Lemma short_suffix i a : short i -> short (i ++ a).
Proof.
  intros (p & c & q & h & t & -> & H & K). exists p, c, q, h, (t ++ a). split; [|now split]. now rewrite <- !app_assoc, <- app_comm_cons, <- !app_assoc.
Qed.
Lemma short_cons c i : short i -> short (c :: i).
Proof. exact (short_prefix [c] i). Qed.

(** ** The law of a pair of readers

    [P]: what is known of the input when the checks stop the first. *)
Definition pair_law (P : bytes -> Prop) {T} (d r : bytes -> res (bytes * T)) : Prop := forall inp,
  (d inp = r inp \/ d inp = Panic PArith /\ P inp) /\ forall rest v, d inp = Ok (rest, v) -> exists p, inp = p ++ rest.
Lemma pl_same (P : bytes -> Prop) {T} (d : bytes -> res (bytes * T)) b : core b d -> pair_law P d d.
Proof. intros C inp. split; [now left|]. intros rest v. apply (co_shrinks C). Qed.
Lemma pl_weaken (P Q : bytes -> Prop) {T} (d r : bytes -> res (bytes * T)) : (forall i, P i -> Q i) -> pair_law P d r -> pair_law Q d r.
Proof. intros H L inp. destruct (L inp) as [[E|[E K]] S]; split; auto. Qed.
Lemma pl_ret (P : bytes -> Prop) {T} (x : T) : pair_law P (fun i => Ok (i, x)) (fun i => Ok (i, x)).
Proof. intros inp. split; [now left|]. intros rest v [= <- _]. now exists []. Qed.
Lemma pl_fail (P : bytes -> Prop) {T} (e : res (bytes * T)) : (forall x, e <> Ok x) -> pair_law P (fun _ => e) (fun _ => e).
Proof. intros N inp. split; [now left|]. intros rest v E. now apply N in E. Qed.
Lemma pl_bind (P Q : bytes -> Prop) {T U} (d r : bytes -> res (bytes * T)) (k l : T -> bytes -> res (bytes * U)) :
  pair_law P d r -> (forall x, pair_law Q (k x) (l x)) -> (forall p i, Q i -> P (p ++ i)) ->
  pair_law P (fun i => '(j, x) <- d i ;; k x j) (fun i => '(j, x) <- r i ;; l x j).
Proof.
  intros L K H inp. destruct (L inp) as [[E|[E HP]] S].
  - rewrite <- E. destruct (d inp) as [[j x]|e|p|] eqn:D; cbn [bind]; [|split; [now left|discriminate]..].
    destruct (S j x eq_refl) as [p ->]. destruct (K x j) as [HK SK]. split.
    + destruct HK as [->|[-> HK]]; [now left|right; auto].
    + intros rest v E1. destruct (SK _ _ E1) as [q ->]. exists (p ++ q). now rewrite app_assoc.
  - rewrite E. cbn [bind]. split; [now right|discriminate].
Qed.
Lemma pl_map (P : bytes -> Prop) {T U} (f : T -> U) (d r : bytes -> res (bytes * T)) : pair_law P d r -> pair_law P (fun i => map_res f (d i)) (fun i => map_res f (r i)).
Proof.
  intros L inp. destruct (L inp) as [[E|[E H]] S]; unfold map_res.
  - rewrite <- E. split; [now left|]. intros rest v E1. apply bind_ok in E1 as [[j x] [E1 E2]]. injection E2 as <- _. eauto.
  - rewrite E. cbn [bind]. split; [now right|discriminate].
Qed.
Lemma pl_if (P : bytes -> Prop) (c : bool) {T} (d r d' r' : bytes -> res (bytes * T)) : pair_law P d r -> pair_law P d' r' ->
  pair_law P (fun i => if c then d i else d' i) (fun i => if c then r i else r' i).
Proof. now destruct c. Qed.
Lemma pl_ext (P : bytes -> Prop) {T} (d r d' r' : bytes -> res (bytes * T)) : (forall i, d i = d' i) -> (forall i, r i = r' i) -> pair_law P d r -> pair_law P d' r'.
Proof. intros H1 H2 L inp. rewrite <- H1, <- H2. apply L. Qed.
Lemma pl_loop (P : bytes -> Prop) {X} (f g : bytes * X -> res (bytes * X)) n : (forall p i, P i -> P (p ++ i)) ->
  (forall acc, pair_law P (fun i => f (i, acc)) (fun i => g (i, acc))) -> forall x, pair_law P (fun i => loop_n n f (i, x)) (fun i => loop_n n g (i, x)).
Proof.
  intros H L x. apply (pl_ext P (fun i => iter_res (Z.to_nat n) f (i, x)) (fun i => iter_res (Z.to_nat n) g (i, x))); [intros i; symmetry; apply loop_n_iter..|].
  revert x. induction (Z.to_nat n) as [|k IH]; intros x; cbn [iter_res]; [apply pl_ret|].
  apply (pl_ext P (fun i => '(j, y) <- f (i, x) ;; iter_res k f (j, y)) (fun i => '(j, y) <- g (i, x) ;; iter_res k g (j, y))).
  1,2: intros i; apply bind_ext; now intros [].
  now apply (pl_bind P P (fun i => f (i, x)) (fun i => g (i, x)) (fun y j => iter_res k f (j, y)) (fun y j => iter_res k g (j, y))).
Qed.

(** A type's decoder: the format code is read already. *)
Definition dec_law {T} (d : dec T) : Prop := forall fmt, pair_law (fun i => short (fmt :: i)) (fun i => d Debug i fmt) (fun i => d Release i fmt).
Lemma after fmt p i : short i -> short (fmt :: p ++ i).
Proof. intros H. now apply (short_prefix (fmt :: p)). Qed.
Lemma pl_decode {T} (d : dec T) : dec_law d -> pair_law short (decode d Debug) (decode d Release).
Proof.
  intros L [|c i]; [split; [now left|discriminate]|]. destruct (L c i) as [H S]. rewrite !decode_cons.
  split; [exact H|]. intros rest v E. destruct (S rest v E) as [p ->]. now exists (c :: p).
Qed.
Lemma pure_law {T} (d : dec T) : (forall i c, d Debug i c = d Release i c) -> dsteady d -> dec_law d.
Proof.
  intros E D fmt. apply (pl_ext _ (fun i => d Debug i fmt) (fun i => d Debug i fmt)); [reflexivity|intros i; apply E|].
  apply (pl_same _ _ true). apply D.
Qed.

(** ** Headers *)
Lemma pl_compound8 c : In c [0xc0; 0xc1; 0xe0] -> pair_law (fun i => short (c :: i)) (decode_compound8 Debug) (decode_compound8 Release).
Proof.
  intros Hc inp. unfold decode_compound8, check_len. destruct (zlen inp <? 2); cbn [bind]; [split; [now left|discriminate]|].
  destruct inp as [|b0 [|b1 r]]; try (split; [now left|discriminate]). unfold usub. destruct (Z.ltb_spec b0 1) as [Hlt|Hge]; cbn [bind].
  - split; [right; split; [reflexivity|]|discriminate]. exists [], c, [], [b0; b1], r. split; [reflexivity|]. split; [|now left].
    left. split; [exact Hc|]. now exists b0, b1.
  - split; [now left|]. intros rest v [= <- _]. now exists [b0; b1].
Qed.
Lemma pl_compound32 c : In c [0xd0; 0xd1; 0xf0] -> pair_law (fun i => short (c :: i)) (decode_compound32 Debug) (decode_compound32 Release).
Proof.
  intros Hc inp. unfold decode_compound32, check_len. destruct (Z.ltb_spec (zlen inp) 8) as [|Hl]; cbn [bind]; [split; [now left|discriminate]|].
  unfold usub. destruct (Z.ltb_spec (be_val (ztake 4 inp)) 4) as [Hlt|Hge]; cbn [bind].
  - split; [right; split; [reflexivity|]|discriminate]. exists [], c, [], (ztake 4 inp ++ ztake 4 (zdrop 4 inp)), (zdrop 4 (zdrop 4 inp)).
    split; [cbn [app]; now rewrite <- app_assoc, !ztake_zdrop|]. split; [|now left]. right. split; [exact Hc|]. exists (ztake 4 inp), (ztake 4 (zdrop 4 inp)).
    split; [reflexivity|]. rewrite !zlen_ztake; rewrite ?zlen_zdrop; lia.
  - split; [now left|]. intros rest v [= <- _]. exists (ztake 8 inp). now rewrite ztake_zdrop.
Qed.
Ltac header := intros fmt; repeat match goal with |- pair_law _ (fun i => if fmt =? ?c then _ else _) _ => destruct (Z.eqb_spec fmt c) as [->|?] end;
  first [apply pl_ret|apply pl_compound8; cbn [In]; tauto|apply pl_compound32; cbn [In]; tauto|apply pl_fail; discriminate].
Lemma pl_list_header : dec_law decode_list_header.
Proof. unfold dec_law, decode_list_header. header. Qed.
Lemma pl_map_header : dec_law decode_map_header.
Proof. unfold dec_law, decode_map_header. header. Qed.
Lemma pl_array_header : dec_law decode_array_header.
Proof. unfold dec_law, decode_array_header. header. Qed.

(** ** Collections *)
Lemma pl_step (P : bytes -> Prop) {T} (d r : bytes -> res (bytes * T)) : (forall p i, P i -> P (p ++ i)) -> pair_law P d r ->
  forall acc, pair_law P (fun i => vec_step d (i, acc)) (fun i => vec_step r (i, acc)).
Proof.
  intros H L acc. apply (pl_bind P P d r (fun x i => Ok (i, acc ++ [x])) (fun x i => Ok (i, acc ++ [x]))); [exact L|intros x; apply pl_ret|exact H].
Qed.
Lemma list_law {T} (d : dec T) : dec_law d -> dec_law (list_dec d).
Proof.
  intros D fmt. apply (pl_bind _ short _ _ (fun h i => loop_n (ch_count h) (vec_step (decode d Debug)) (i, [])) (fun h i => loop_n (ch_count h) (vec_step (decode d Release)) (i, [])));
    [apply pl_list_header| |intros p i; apply after].
  intros h. apply pl_loop; [exact short_prefix|]. apply pl_step; [exact short_prefix|]. now apply pl_decode.
Qed.
(** The elements of an array: their code stands once, before the first. *)
Definition inside (i : bytes) : Prop := exists p c q h t, i = p ++ c :: q ++ h ++ t /\ short_header c h.
Lemma inside_later c p i : inside (c :: i) -> inside (c :: p ++ i).
Proof.
  intros (x & c' & q & h & t & E & H). destruct x as [|x1 x]; cbn [app] in E; injection E as -> ->.
  - exists [], c', (p ++ q), h, t. split; [|exact H]. cbn [app]. now rewrite <- app_assoc.
  - exists (x1 :: p ++ x), c', q, h, t. split; [|exact H]. cbn [app]. now rewrite <- app_assoc.
Qed.
Lemma inside_short i : short i -> inside i.
Proof. intros (p & c & q & h & t & E & H & _). now exists p, c, q, h, t. Qed.
Lemma array_code md i fmt x : decode_array_header md i fmt = Ok x -> fmt = 0xe0 \/ fmt = 0xf0.
Proof.
  unfold decode_array_header. destruct (Z.eqb_spec fmt FC_ARRAY8) as [->|]; [now left|]. destruct (Z.eqb_spec fmt FC_ARRAY32) as [->|]; [now right|discriminate].
Qed.
Lemma vec_law {T} (d : dec T) : dec_law d -> dec_law (vec_dec d).
Proof.
  intros D fmt. set (Q := fun i => (fmt = 0xe0 \/ fmt = 0xf0) -> short (fmt :: i)).
  set (k := fun md (h : compound_header) i => match i with [] => @Panic (bytes * list T) PSlice | c :: r => loop_n (ch_count h) (vec_step (fun i => d md i c)) (r, []) end).
  assert (L : forall h, pair_law (fun i => inside i) (k Debug h) (k Release h)).
  { intros h [|c r]; [split; [now left|discriminate]|]. cbn [k].
    destruct (pl_loop (fun i => inside (c :: i)) (vec_step (fun i => d Debug i c)) (vec_step (fun i => d Release i c)) (ch_count h) (inside_later c)
      (pl_step _ _ _ (inside_later c) (pl_weaken _ _ _ _ (fun i => inside_short (c :: i)) (D c))) [] r) as [H S].
    split; [exact H|]. intros rest v E. destruct (S rest v E) as [p ->]. now exists (c :: p). }
  intros inp. unfold vec_dec. destruct (pl_array_header fmt inp) as [[E|[E HP]] S].
  - rewrite <- E. destruct (decode_array_header Debug inp fmt) as [[i h]|e|p|] eqn:E1; cbn [bind]; [|split; [now left|discriminate]..].
    destruct (S i h eq_refl) as [p ->]. destruct (L h i) as [H SL]. split.
    + destruct H as [H|[H (x & c & q & hd & t & -> & K)]]; [now left|right]. split; [exact H|]. exists (fmt :: p ++ x), c, q, hd, t.
      split; [cbn [app]; now rewrite <- app_assoc|]. split; [exact K|]. right. destruct (array_code _ _ _ _ E1) as [->| ->]; [left|right]; now left.
    + intros rest v E2. destruct (SL rest v E2) as [y ->]. exists (p ++ y). now rewrite app_assoc.
  - rewrite E. cbn [bind]. split; [now right|discriminate].
Qed.
Lemma multiple_law {T} (d : dec T) : dec_law d -> dec_law (multiple_dec d).
Proof.
  intros D fmt. apply pl_if; [now apply vec_law|]. apply (pl_bind _ short _ _ (fun x i => Ok (i, [x])) (fun x i => Ok (i, [x]))); [apply D|intros; apply pl_ret|intros p i; apply after].
Qed.
Lemma option_law {T} (d : dec T) : dec_law d -> dec_law (option_dec d).
Proof. intros D fmt. apply pl_if; [apply pl_ret|]. apply pl_map, D. Qed.
Lemma map_like_law {X} fmt (f g : bytes * X -> res (bytes * X)) (x0 : X) : (forall acc, pair_law short (fun i => f (i, acc)) (fun i => g (i, acc))) ->
  pair_law (fun i => short (fmt :: i))
    (fun inp => '(inp1, header) <- decode_map_header Debug inp fmt ;; map_input <- slice_to inp1 (ch_size header) ;;
      '(_, m) <- loop_n (ch_count header / 2) f (map_input, x0) ;; Ok (zdrop (ch_size header) inp1, m))
    (fun inp => '(inp1, header) <- decode_map_header Release inp fmt ;; map_input <- slice_to inp1 (ch_size header) ;;
      '(_, m) <- loop_n (ch_count header / 2) g (map_input, x0) ;; Ok (zdrop (ch_size header) inp1, m)).
Proof.
  intros L. apply (pl_bind _ short _ _
    (fun h i => w <- slice_to i (ch_size h) ;; '(_, m) <- loop_n (ch_count h / 2) f (w, x0) ;; Ok (zdrop (ch_size h) i, m))
    (fun h i => w <- slice_to i (ch_size h) ;; '(_, m) <- loop_n (ch_count h / 2) g (w, x0) ;; Ok (zdrop (ch_size h) i, m)));
    [apply pl_map_header| |intros p i; apply after].
  intros h i. unfold slice_to. destruct (zlen i <? ch_size h); cbn [bind]; [split; [now left|discriminate]|].
  destruct (pl_loop short f g (ch_count h / 2) short_prefix L x0 (ztake (ch_size h) i)) as [[E|[E H]] _].
  - rewrite <- E. split; [now left|]. intros rest v E1. apply bind_ok in E1 as [[j m] [_ [= <- _]]]. exists (ztake (ch_size h) i). now rewrite ztake_zdrop.
  - rewrite E. cbn [bind]. split; [right; split; [reflexivity|]|discriminate]. rewrite <- (ztake_zdrop (ch_size h) i). now apply short_suffix.
Qed.
Lemma map_law {K V} (KO : key K) (dk : dec K) (dv : dec V) : dec_law dk -> dec_law dv -> dec_law (map_dec KO dk dv).
Proof.
  intros HK HV fmt. apply (map_like_law fmt (map_step KO (decode dk Debug) (decode dv Debug)) (map_step KO (decode dk Release) (decode dv Release)) []).
  intros acc. unfold map_step.
  apply (pl_bind short short _ _
    (fun k i => '(j, v) <- decode dv Debug i ;; if k_hashable KO k then Ok (j, hm_insert (k_eqb KO) k v acc) else Panic PUnimplemented)
    (fun k i => '(j, v) <- decode dv Release i ;; if k_hashable KO k then Ok (j, hm_insert (k_eqb KO) k v acc) else Panic PUnimplemented));
    [now apply pl_decode| |exact short_prefix].
  intros k. apply (pl_bind short short _ _
    (fun v j => if k_hashable KO k then Ok (j, hm_insert (k_eqb KO) k v acc) else Panic PUnimplemented)
    (fun v j => if k_hashable KO k then Ok (j, hm_insert (k_eqb KO) k v acc) else Panic PUnimplemented)); [now apply pl_decode| |exact short_prefix].
  intros v. apply pl_if; [apply pl_ret|apply pl_fail; discriminate].
Qed.
Ltac branches := try (apply pl_if; [first [apply pl_ret|apply pl_map|idtac]|branches]).
Lemma body_law rec : dec_law rec -> dec_law (variant_body rec).
Proof.
  intros D fmt. unfold variant_body. branches.
  all: try (apply pl_fail; discriminate).
  all: try first [now apply list_law|now apply map_law|
    exact (pure_law bool_dec (fun _ _ => eq_refl) ds_bool fmt)|
    exact (pure_law u8_dec (fun _ _ => eq_refl) ds_u8 fmt)|
    exact (pure_law u16_dec (fun _ _ => eq_refl) ds_u16 fmt)|
    exact (pure_law u32_dec (fun _ _ => eq_refl) ds_u32 fmt)|
    exact (pure_law u64_dec (fun _ _ => eq_refl) ds_u64 fmt)|
    exact (pure_law i8_dec (fun _ _ => eq_refl) ds_i8 fmt)|
    exact (pure_law i16_dec (fun _ _ => eq_refl) ds_i16 fmt)|
    exact (pure_law i32_dec (fun _ _ => eq_refl) ds_i32 fmt)|
    exact (pure_law i64_dec (fun _ _ => eq_refl) ds_i64 fmt)|
    exact (pure_law f32_dec (fun _ _ => eq_refl) ds_f32 fmt)|
    exact (pure_law f64_dec (fun _ _ => eq_refl) ds_f64 fmt)|
    exact (pure_law char_dec (fun _ _ => eq_refl) ds_char fmt)|
    exact (pure_law datetime_dec (fun _ _ => eq_refl) ds_datetime fmt)|
    exact (pure_law uuid_dec (fun _ _ => eq_refl) ds_uuid fmt)|
    exact (pure_law bin_dec (fun _ _ => eq_refl) ds_bin fmt)|
    exact (pure_law bstr_dec (fun _ _ => eq_refl) ds_bstr fmt)|
    exact (pure_law symbol_dec (fun _ _ => eq_refl) ds_symbol fmt)].
  apply (pl_weaken short); [apply short_cons|].
  apply (pl_bind short short _ _ (fun d i => '(j, v) <- decode rec Debug i ;; Ok (j, VDescribed d v)) (fun d i => '(j, v) <- decode rec Release i ;; Ok (j, VDescribed d v)));
    [apply pl_decode, pure_law; [reflexivity|exact ds_descriptor]| |exact short_prefix].
  intros d. apply (pl_bind short short _ _ (fun v j => Ok (j, VDescribed d v)) (fun v j => Ok (j, VDescribed d v))); [now apply pl_decode|intros; apply pl_ret|exact short_prefix].
Qed.
Lemma fuel_law f : dec_law (variant_dec_fuel f).
Proof. induction f as [|f IH]; [intros fmt inp; split; [now left|discriminate]|]. exact (body_law _ IH). Qed.
Lemma variant_law : dec_law variant_dec.
Proof. intros fmt inp. exact (fuel_law (Datatypes.S (length inp)) fmt inp). Qed.
Lemma vecmap_law : dec_law vecmap_dec.
Proof.
  intros fmt. apply (map_like_law fmt (vecmap_step (decode str_dec Debug) (decode variant_dec Debug)) (vecmap_step (decode str_dec Release) (decode variant_dec Release)) []).
  intros acc. unfold vecmap_step.
  apply (pl_bind short short _ _ (fun k i => '(j, v) <- decode variant_dec Debug i ;; Ok (j, acc ++ [(k, v)])) (fun k i => '(j, v) <- decode variant_dec Release i ;; Ok (j, acc ++ [(k, v)])));
    [apply pl_decode, pure_law; [reflexivity|exact ds_str]| |exact short_prefix].
  intros k. apply (pl_bind short short _ _ (fun v j => Ok (j, acc ++ [(k, v)])) (fun v j => Ok (j, acc ++ [(k, v)]))); [apply pl_decode, variant_law|intros; apply pl_ret|exact short_prefix].
Qed.
Lemma language_law {T} (S : tspec T) L : language S L -> dec_law (s_dec S).
Proof.
  intros H. assert (D := ds_language S L H). induction H; try (apply pure_law; [reflexivity|exact D]).
  apply (option_law (s_dec S)). apply IHlanguage. exact (ds_language _ _ H).
Qed.

(** ** Composites and unions *)
Definition select_law {T} (d r : descriptor -> bytes -> res (bytes * T)) : Prop := forall x, pair_law short (d x) (r x).
Lemma labelled_law {T} (d r : descriptor -> bytes -> res (bytes * T)) : select_law d r ->
  pair_law short (fun i => '(j, x) <- decode descriptor_dec Debug i ;; d x j) (fun i => '(j, x) <- decode descriptor_dec Release i ;; r x j).
Proof. intros L. apply (pl_bind short short); [apply pl_decode, pure_law; [reflexivity|exact ds_descriptor]|exact L|exact short_prefix]. Qed.
Lemma described_law {T} (d r : descriptor -> bytes -> res (bytes * T)) fmt : select_law d r ->
  pair_law (fun i => short (fmt :: i)) (fun i => _ <- validate_code fmt FC_DESCRIBED ;; '(j, x) <- decode descriptor_dec Debug i ;; d x j)
    (fun i => _ <- validate_code fmt FC_DESCRIBED ;; '(j, x) <- decode descriptor_dec Release i ;; r x j).
Proof.
  intros L. unfold validate_code. destruct (fmt =? FC_DESCRIBED); cbn [bind]; [|apply pl_fail; discriminate].
  apply (pl_weaken short); [apply short_cons|]. now apply labelled_law.
Qed.
Definition state_law {T} (d r : field_state -> res (field_state * T)) : Prop := forall i n,
  (d (i, n) = r (i, n) \/ d (i, n) = Panic PArith /\ short i) /\ forall j m v, d (i, n) = Ok ((j, m), v) -> exists p, i = p ++ j.
Definition field_mode_law {R} (F : fields R) : Prop := state_law (dec_fields F Debug) (dec_fields F Release).
Lemma state_then {T R U} (d r : field_state -> res (field_state * T)) (F : fields R) (g : T -> R -> U) : state_law d r -> field_mode_law F ->
  state_law (fun s => '(s1, x) <- d s ;; '(s2, a) <- dec_fields F Debug s1 ;; Ok (s2, g x a)) (fun s => '(s1, x) <- r s ;; '(s2, a) <- dec_fields F Release s1 ;; Ok (s2, g x a)).
Proof.
  intros L LF i n. destruct (L i n) as [[E|[E H]] S].
  - rewrite <- E. destruct (d (i, n)) as [[[j m] x]|e|p|]; cbn [bind]; [|split; [now left|discriminate]..]. destruct (S _ _ _ eq_refl) as [p ->].
    destruct (LF j m) as [[E1|[E1 H1]] S1].
    + rewrite <- E1. split; [now left|]. intros j2 m2 v E2. apply bind_ok in E2 as [[[j3 m3] a] [E2 [= <- _ _]]]. destruct (S1 _ _ _ E2) as [q ->]. exists (p ++ q). now rewrite app_assoc.
    + rewrite E1. cbn [bind]. split; [right; split; [reflexivity|now apply short_prefix]|discriminate].
  - rewrite E. cbn [bind]. split; [now right|discriminate].
Qed.
Lemma read_state {T U} (d : dec T) (g : T -> U) i n : dec_law d ->
  (('(j, x) <- decode d Debug i ;; Ok ((j, n - 1), g x)) = ('(j, x) <- decode d Release i ;; Ok ((j, n - 1), g x)) \/
    ('(j, x) <- decode d Debug i ;; Ok ((j, n - 1), g x)) = Panic PArith /\ short i) /\
  forall j m v, ('(j, x) <- decode d Debug i ;; Ok ((j, n - 1), g x)) = Ok ((j, m), v) -> exists p, i = p ++ j.
Proof.
  intros D. destruct (pl_decode d D i) as [[E|[E H]] S].
  - rewrite <- E. split; [now left|]. intros j m v E1. apply bind_ok in E1 as [[j1 x] [E1 [= <- _ _]]]. eauto.
  - rewrite E. cbn [bind]. split; [now right|discriminate].
Qed.
Lemma req_mode_law {T} name (S : tspec T) : dec_law (s_dec S) -> state_law (req_field name (s_codec S) Debug) (req_field name (s_codec S) Release).
Proof. intros D i n. unfold req_field. destruct (0 <? n); [exact (read_state (s_dec S) (fun x => x) i n D)|split; [now left|discriminate]]. Qed.
Lemma opt_mode_law {T} (S : tspec T) : dec_law (s_dec S) -> state_law (opt_field (s_codec S) Debug) (opt_field (s_codec S) Release).
Proof.
  intros D i n. unfold opt_field. destruct (0 <? n); [exact (read_state (option_dec (s_dec S)) (fun x => x) i n (option_law _ D))|]. split; [now left|].
  intros j m v [= <- _ _]. now exists [].
Qed.
Lemma def_mode_law {T} (S : tspec T) dflt : dec_law (s_dec S) -> state_law (def_field (s_codec S) dflt Debug) (def_field (s_codec S) dflt Release).
Proof.
  intros D i n. unfold def_field. destruct (0 <? n); [exact (read_state (option_dec (s_dec S)) (fun x => match x with Some y => y | None => dflt end) i n (option_law _ D))|]. split; [now left|].
  intros j m v [= <- _ _]. now exists [].
Qed.
Lemma open_mode_law {R U} (F : fields R) (k : R -> bytes -> bytes * U) : field_mode_law F -> (forall a i, exists p, i = p ++ fst (k a i)) ->
  pair_law short (fun inp => '(s, rem) <- open_list Debug inp ;; '(_, a) <- dec_fields F Debug s ;; Ok (k a rem))
    (fun inp => '(s, rem) <- open_list Release inp ;; '(_, a) <- dec_fields F Release s ;; Ok (k a rem)).
Proof.
  intros L H.
  apply (pl_ext short
    (fun inp => '(i, h) <- decode decode_list_header Debug inp ;; _ <- check_len i (ch_size h) ;; '(_, a) <- dec_fields F Debug (ztake (ch_size h) i, ch_count h) ;; Ok (k a (zdrop (ch_size h) i)))
    (fun inp => '(i, h) <- decode decode_list_header Release inp ;; _ <- check_len i (ch_size h) ;; '(_, a) <- dec_fields F Release (ztake (ch_size h) i, ch_count h) ;; Ok (k a (zdrop (ch_size h) i)))).
  1,2: intros inp; unfold open_list, decode; destruct (decode_format_code inp) as [[i c]|?|?|]; cbn [bind]; try reflexivity;
    destruct (decode_list_header _ i c) as [[j h]|?|?|]; cbn [bind]; try reflexivity; now destruct (check_len j (ch_size h)).
  apply (pl_bind short short _ _
    (fun h i => _ <- check_len i (ch_size h) ;; '(_, a) <- dec_fields F Debug (ztake (ch_size h) i, ch_count h) ;; Ok (k a (zdrop (ch_size h) i)))
    (fun h i => _ <- check_len i (ch_size h) ;; '(_, a) <- dec_fields F Release (ztake (ch_size h) i, ch_count h) ;; Ok (k a (zdrop (ch_size h) i))));
    [apply pl_decode, pl_list_header| |exact short_prefix].
  intros h i. unfold check_len. destruct (zlen i <? ch_size h); cbn [bind]; [split; [now left|discriminate]|].
  destruct (L (ztake (ch_size h) i) (ch_count h)) as [[E|[E K]] _].
  - unfold bytes, field_state in *. rewrite <- E. split; [now left|]. intros rest v E1. apply bind_ok in E1 as [[s a] [_ E1]]. injection E1 as E1. destruct (H a (zdrop (ch_size h) i)) as [p Hp]. rewrite E1 in Hp. cbn [fst] in Hp.
    exists (ztake (ch_size h) i ++ p). rewrite <- app_assoc, <- Hp. now rewrite ztake_zdrop.
  - unfold bytes, field_state in *. rewrite E. cbn [bind]. split; [right; split; [reflexivity|]|discriminate]. rewrite <- (ztake_zdrop (ch_size h) i). now apply short_suffix.
Qed.
Definition inner_mode_law {T} (D : dspec T) : Prop := pair_law short (d_inner D Debug) (d_inner D Release).
Definition union_mode_law {T} (alts : list (alternative T)) : Prop := select_law (union_select alts Debug) (union_select alts Release).
Lemma union_cons_law {T} (a : alternative T) r : inner_mode_law (a_D a) -> union_mode_law r -> union_mode_law (a :: r).
Proof. intros I U d. cbn [union_select]. apply pl_if; [now apply pl_map|apply U]. Qed.
Lemma union_nil_law {T} : @union_mode_law T [].
Proof. intros d. apply pl_fail. discriminate. Qed.
Lemma run_law (E : forall T, tspec T -> Prop) :
  (forall T (S : tspec T) D, runs E S D -> dec_law (s_dec S)) /\
  (forall R (F : fields R) D, field_runs E F D -> field_mode_law F) /\
  (forall T (S : dspec T) D, inner_runs E S D -> inner_mode_law S) /\
  (forall T (alts : list (alternative T)) D, union_runs E alts D -> union_mode_law alts).
Proof.
  apply runs_mutind.
  - intros T S L H. exact (language_law S L H).
  - exact variant_law.
  - exact (list_law _ variant_law).
  - exact vecmap_law.
  - intros T S D _ IH _. exact (option_law _ IH).
  - intros K V KO SK SV DK DV _ HK _ HV. exact (map_law KO _ _ HK HV).
  - intros T A width S D _ _ _ IH. exact (vec_law _ IH).
  - intros T A width S D _ _ _ _ _ IH. exact (multiple_law _ IH).
  - intros K D HK _ IH fmt.
    apply (pl_ext _ (fun inp => composite_dec (k_code K) (k_name K) (k_inner K) Debug inp fmt) (fun inp => composite_dec (k_code K) (k_name K) (k_inner K) Release inp fmt));
      [intros inp; symmetry; now rewrite (composite_dec_eq K HK)..|].
    unfold composite_dec. apply (described_law (fun d inp => if named (k_code K) (k_name K) d then k_inner K Debug inp else Err (EInvalidDescriptor d))
      (fun d inp => if named (k_code K) (k_name K) d then k_inner K Release inp else Err (EInvalidDescriptor d))).
    intros d. apply pl_if; [exact IH|apply pl_fail; discriminate].
  - intros T S alts D U _ IH fmt.
    apply (pl_ext _ (fun inp => _ <- validate_code fmt FC_DESCRIBED ;; '(i, d) <- decode descriptor_dec Debug inp ;; union_select alts Debug d i)
      (fun inp => _ <- validate_code fmt FC_DESCRIBED ;; '(i, d) <- decode descriptor_dec Release inp ;; union_select alts Release d i));
      [intros inp; symmetry; exact (union_dec_eq S alts U _ inp fmt)..|]. now apply described_law.
  - intros i n. split; [now left|]. intros j m v [= <- _ _]. now exists [].
  - intros T R name S r D DR _ IH _ IHr. exact (state_then _ _ r (fun x a => (x, a)) (req_mode_law name S IH) IHr).
  - intros T R name S r D DR _ IH _ IHr. exact (state_then _ _ r (fun x a => (x, a)) (opt_mode_law S IH) IHr).
  - intros T R name S dflt r D DR _ IH _ IHr. exact (state_then _ _ r (fun x a => (x, a)) (def_mode_law S dflt IH) IHr).
  - intros K D HK _ IH. destruct (all_composites_ok K HK) as [TR _].
    apply (pl_ext short (fun inp => '(s, rem) <- open_list Debug inp ;; '(_, a) <- dec_fields (k_fields K) Debug s ;; Ok (rem, k_of K a))
      (fun inp => '(s, rem) <- open_list Release inp ;; '(_, a) <- dec_fields (k_fields K) Release s ;; Ok (rem, k_of K a))).
    1,2: intros inp; cbn [d_inner composite_D]; rewrite (tr_inner K TR); apply bind_ext; intros [s rem]; now rewrite dec_fields_k_eq.
    apply (open_mode_law (k_fields K) (fun a rem => (rem, k_of K a)) IH). intros a i. now exists [].
  - intros T code name S size enc inner D HI _ IH. apply (pl_ext short (decode (s_dec S) Debug) (decode (s_dec S) Release)); [intros inp; symmetry; apply HI..|]. now apply pl_decode.
  - intros T. exact union_nil_law.
  - intros T a r D DR _ IH _ IHr. now apply union_cons_law.
Qed.
Lemma type_law {T} (S : tspec T) : amqp_type S -> dec_law (s_dec S).
Proof. intros H. destruct (types_run _ S H) as [D HD]. now apply (run_law any_element) in HD. Qed.
Lemma types_same {T} (S : tspec T) : amqp_type S -> forall inp, same_or_stops inp (decode (s_dec S) Debug inp) (decode (s_dec S) Release inp).
Proof. intros H inp. apply (pl_decode _ (type_law S H)). Qed.

(** ** Frames and messages *)
Lemma transfer_mode_law (E : forall T, tspec T -> Prop) D : field_runs E transfer_table D -> inner_mode_law transfer_D.
Proof.
  intros FR. apply (run_law E) in FR.
  assert (X : forall md inp, ('(s, rem) <- open_list md inp ;; '(_, a) <- dec_fields transfer_table md s ;; Ok ([], transfer_of a (received_payload rem))) = d_inner transfer_D md inp).
  { intros md inp. cbn [d_inner transfer_D]. rewrite transfer_inner_eq. unfold head_inner. destruct (open_list md inp) as [[s rem]|?|?|]; cbn [bind]; try reflexivity.
    rewrite dec_fields_k_eq. now destruct (dec_fields transfer_table md s) as [[]|?|?|]. }
  apply (pl_ext short _ _ _ _ (X Debug) (X Release)). apply (open_mode_law transfer_table (fun a rem => ([], transfer_of a (received_payload rem))) FR).
  intros a i. exists i. cbn [fst]. now rewrite app_nil_r.
Qed.
Lemma frames_mode_law (E : forall T, tspec T -> Prop) alts D : frame_runs E alts D -> union_mode_law alts.
Proof.
  intros H. induction H as [|a r D DR P _ IH]; [apply union_nil_law|]. apply union_cons_law; [|exact IH]. clear IH.
  destruct P as [K D _ H|D H]; [now apply (run_law E) in H|now apply (transfer_mode_law E) in H].
Qed.
Lemma performative_law : pair_law short (frame_decode Debug) (frame_decode Release).
Proof.
  destruct (frames_run any_element any_allows) as [R HR]. apply frames_mode_law in HR.
  intros [|c r]; [split; [now left|]; intros rest v [= <- _]; now exists []|]. rewrite !frame_decode_cons.
  destruct (described_law _ _ c HR r) as [H S]. split; [exact H|]. intros rest v E. destruct (S rest v E) as [p ->]. now exists (c :: p).
Qed.
Lemma amqp_law : pair_law short (amqp_frame_decode Debug) (amqp_frame_decode Release).
Proof.
  apply (pl_bind short short _ _ (fun ch i => map_res (MkAmqpFrame ch) (frame_decode Debug i)) (fun ch i => map_res (MkAmqpFrame ch) (frame_decode Release i)));
    [apply (pl_same _ _ true), header_core| |exact short_prefix]. intros ch. apply pl_map, performative_law.
Qed.
Lemma sasl_law : pair_law short (sasl_frame_decode Debug) (sasl_frame_decode Release).
Proof.
  apply (pl_bind short short _ _ (fun _ i => map_res MkSaslFrame (decode sasl_frame_body_dec Debug i)) (fun _ i => map_res MkSaslFrame (decode sasl_frame_body_dec Release i)));
    [apply (pl_same _ _ true), header_core| |exact short_prefix]. intros ch. apply pl_map. exact (pl_decode _ (type_law _ ty_sasl_frame_body)).
Qed.
Lemma message_loop_law f : forall m inp, same_or_stops inp (message_decode_loop f Debug m inp) (message_decode_loop f Release m inp).
Proof.
  induction f as [|f IH]; intros m inp; [now left|]. cbn [message_decode_loop].
  destruct (pl_decode _ (type_law _ ty_section) inp) as [H S]. change (s_dec section_S) with section_dec in *. destruct H as [E|[E H]].
  - rewrite <- E. destruct (decode section_dec Debug inp) as [[rest s]|?|?|]; cbn [bind]; try now left. destruct (S _ _ eq_refl) as [p ->].
    destruct rest as [|c r]; [now left|]. destruct (IH (message_add_section m s) (c :: r)) as [H|[H K]]; [now left|right]. split; [exact H|now apply short_prefix].
  - rewrite E. now right.
Qed.
Lemma messages_same inp : same_or_stops inp (message_decode Debug inp) (message_decode Release inp).
Proof. apply message_loop_law. Qed.
Lemma amqp_same inp : same_or_stops inp (amqp_frame_decode Debug inp) (amqp_frame_decode Release inp).
Proof. apply amqp_law. Qed.
Lemma sasl_same inp : same_or_stops inp (sasl_frame_decode Debug inp) (sasl_frame_decode Release inp).
Proof. apply sasl_law. Qed.

Lemma amqp_agree i : amqp_frame_decode Debug i = amqp_frame_decode Release i \/ amqp_frame_decode Debug i = Panic PArith.
Proof. destruct (amqp_same i) as [H|[H _]]; [left; exact H|right; exact H]. Qed.

Lemma sasl_agree i : sasl_frame_decode Debug i = sasl_frame_decode Release i \/ sasl_frame_decode Debug i = Panic PArith.
Proof. destruct (sasl_same i) as [H|[H _]]; [left; exact H|right; exact H]. Qed.

(** ** Streams *)
Lemma cut_cons {S E} (stop : E) x (d r : S * list E) : same_or_cut stop d r ->
  same_or_cut stop (let (s, evs) := d in (s, x :: evs)) (let (s, evs) := r in (s, x :: evs)).
Proof.
  intros [->|(before & more & H1 & H2)]; [now left|]. right. exists (x :: before), more. destruct d as [s1 e1], r as [s2 e2]. cbn [snd] in *. now subst.
Qed.
Section Streams.
  Context {T : Type} (D : mode -> bytes -> res (bytes * T)).
  Hypothesis L : forall i, D Debug i = D Release i \/ D Debug i = Panic PArith.
  Lemma codec_step_law st src : amqp_codec_decode D Debug st src = amqp_codec_decode D Release st src \/
    exists st1 src1, amqp_codec_decode D Debug st src = (st1, src1, DPanic PArith).
  Proof.
    assert (A : forall n s, decode_frame_arm D Debug n s = decode_frame_arm D Release n s \/ exists st1 src1, decode_frame_arm D Debug n s = (st1, src1, DPanic PArith)).
    { intros n s. unfold decode_frame_arm. destruct (zlen s <? n); [now left|]. destruct (L (ztake n s)) as [->| ->]; [now left|right; eauto]. }
    unfold amqp_codec_decode. destruct st as [|n]; [|apply A]. destruct (_ <? _); [now left|]. unfold usub. destruct (_ <? 4); [right; eauto|].
    destruct (_ <? _); [now left|apply A].
  Qed.
  Lemma drain_law f : forall st src, same_or_cut (EvPanic PArith) (drain D f Debug st src) (drain D f Release st src).
  Proof.
    induction f as [|f IH]; intros st src; [now left|]. cbn [drain]. destruct (codec_step_law st src) as [E|(st1 & src1 & E)].
    - rewrite <- E. destruct (amqp_codec_decode D Debug st src) as [[st1 src1] [|x|e|p|]]; try now left. apply cut_cons, IH.
    - rewrite E. right. exists [], (snd (drain D (S f) Release st src)). now split.
  Qed.
  Lemma drain_dead f : forall st b s1 e1, drain D f Debug st b = (s1, e1) -> forall before, e1 = before ++ [EvPanic PArith] -> s1 = SDead.
  Proof.
    induction f as [|f IHf]; intros st b s1 e1; cbn [drain]; [now intros [= <- _]|].
    destruct (amqp_codec_decode D Debug st b) as [[st2 b2] [|x|e|p|]]; [intros [= <- <-] [|]; discriminate| |now intros [= <- _]..].
    destruct (drain D f Debug st2 b2) as [s2 e2] eqn:E2. intros [= <- <-] [|y before] E; [discriminate|]. injection E as _ E. now apply (IHf _ _ _ _ E2 before).
  Qed.
  Lemma feed_all_law chunks : forall s, same_or_cut (EvPanic PArith) (feed_all D Debug s chunks) (feed_all D Release s chunks).
  Proof.
    induction chunks as [|c r IH]; intros s; [now left|]. cbn [feed_all].
    assert (F : same_or_cut (EvPanic PArith) (feed D Debug s c) (feed D Release s c)) by (destruct s; [apply drain_law|now left]).
    assert (Z : forall s1 e1, feed D Debug s c = (s1, e1) -> forall before, e1 = before ++ [EvPanic PArith] -> s1 = SDead).
    { intros s1 e1. destruct s as [st src|]; [apply drain_dead|]. intros [= <- <-]. intros [|]; discriminate. }
    destruct (feed D Debug s c) as [s1 e1] eqn:E1, (feed D Release s c) as [s2 e2] eqn:E2. destruct F as [[= <- <-]|(before & more & H1 & H2)].
    - destruct (IH s1) as [->|(b2 & m2 & H1 & H2)]; [now left|]. right. destruct (feed_all D Debug s1 r) as [s3 e3], (feed_all D Release s1 r) as [s4 e4]. cbn [snd] in *. subst.
      exists (e1 ++ b2), m2. now rewrite !app_assoc.
    - cbn [snd] in *. rewrite (Z _ _ eq_refl before H1). right. exists before. destruct (feed_all D Release s2 r) as [s4 e4].
      exists (more ++ e4). assert (N : feed_all D Debug SDead r = (SDead, [])).
      { clear. induction r as [|x r IH]; [reflexivity|]. cbn [feed_all feed]. now rewrite IH. }
      rewrite N. cbn [snd]. rewrite H1, H2, app_nil_r. now rewrite app_assoc.
  Qed.
End Streams.

Lemma amqp_stream_same chunks s : same_or_cut (EvPanic PArith) (feed_all amqp_frame_decode Debug s chunks) (feed_all amqp_frame_decode Release s chunks).
Proof. exact (feed_all_law amqp_frame_decode amqp_agree chunks s). Qed.
Lemma sasl_stream_same chunks s : same_or_cut (EvPanic PArith) (feed_all sasl_frame_decode Debug s chunks) (feed_all sasl_frame_decode Release s chunks).
Proof. exact (feed_all_law sasl_frame_decode sasl_agree chunks s). Qed.

Lemma read_item_law r src : read_item Debug r src = read_item Release r src \/ exists r1 src1, read_item Debug r src = (r1, src1, RFail (FPanic PArith)).
Proof.
  destruct r as [|st|st]; cbn [read_item]; [now left| |].
  - destruct (codec_step_law sasl_frame_decode sasl_agree st src) as [->|(st1 & src1 & ->)]; [now left|right; now eexists _, _].
  - destruct (codec_step_law amqp_frame_decode amqp_agree st src) as [->|(st1 & src1 & ->)]; [now left|right; now eexists _, _].
Qed.
Section Connections.
  Context {A : Type} (step : A -> item -> A * option kind).
  Lemma serve_law f : forall a r src, same_or_cut (SFail (FPanic PArith)) (serve step f Debug a r src) (serve step f Release a r src).
  Proof.
    induction f as [|f IH]; intros a r src; [now left|]. cbn [serve]. destruct (read_item_law r src) as [E|(r1 & src1 & E)].
    - rewrite <- E. destruct (read_item Debug r src) as [[r1 src1] [|x|e]]; try now left. destruct (step a x) as [a' k]. apply (cut_cons (SFail (FPanic PArith)) (SItem x)), IH.
    - rewrite E. right. exists [], (snd (serve step (S f) Release a r src)). now split.
  Qed.
  Lemma serve_dead f : forall a r src c s, serve step f Debug a r src = (c, s) -> forall before e, s = before ++ [SFail e] -> c = CDead.
  Proof.
    induction f as [|f IHf]; intros a r src c s; cbn [serve]; [now intros [= <- _]|].
    destruct (read_item Debug r src) as [[r1 src1] [|x|e1]]; [intros [= <- <-] [|]; discriminate| |now intros [= <- _]].
    destruct (step a x) as [a' k]. destruct (serve step f Debug a' _ src1) as [c2 s2] eqn:E2. intros [= <- <-] [|y before] e E; [discriminate|]. injection E as _ E. now apply (IHf _ _ _ _ _ E2 before e).
  Qed.
  Lemma receive_all_law chunks : forall c, same_or_cut (SFail (FPanic PArith)) (receive_all step Debug c chunks) (receive_all step Release c chunks).
  Proof.
    induction chunks as [|x r IH]; intros c; [now left|]. cbn [receive_all].
    assert (F : same_or_cut (SFail (FPanic PArith)) (receive step Debug c x) (receive step Release c x)) by (destruct c; [apply serve_law|now left]).
    assert (Z : forall s1 e1, receive step Debug c x = (s1, e1) -> forall before, e1 = before ++ [SFail (FPanic PArith)] -> s1 = CDead).
    { intros s1 e1. destruct c as [a rd src|]; [intros E before; apply (serve_dead _ _ _ _ _ _ E)|]. intros [= <- <-]. intros [|]; discriminate. }
    destruct (receive step Debug c x) as [s1 e1] eqn:E1, (receive step Release c x) as [s2 e2] eqn:E2. destruct F as [[= <- <-]|(before & more & H1 & H2)].
    - destruct (IH s1) as [->|(b2 & m2 & H1 & H2)]; [now left|]. right. destruct (receive_all step Debug s1 r) as [s3 e3], (receive_all step Release s1 r) as [s4 e4]. cbn [snd] in *. subst.
      exists (e1 ++ b2), m2. now rewrite !app_assoc.
    - cbn [snd] in *. rewrite (Z _ _ eq_refl before H1). right. exists before. destruct (receive_all step Release s2 r) as [s4 e4].
      exists (more ++ e4). assert (N : receive_all step Debug CDead r = (CDead, [])).
      { clear. induction r as [|y r IH]; [reflexivity|]. cbn [receive_all receive]. now rewrite IH. }
      rewrite N. cbn [snd]. rewrite H1, H2, app_nil_r. now rewrite app_assoc.
  Qed.
End Connections.

(** ** What the build without checks makes of a short header *)
Lemma compound8_wraps n r : decode_compound8 Release (0 :: n :: r) = Ok (r, MkCH 255 n).
Proof.
  unfold decode_compound8. rewrite check_len_true by (rewrite !zlen_cons; pose proof (zlen_nonneg r); lia). reflexivity.
Qed.
Lemma compound32_read size n r : 0 <= size < 2 ^ 32 -> 0 <= n < 2 ^ 32 -> decode_compound32 Release (be4 size ++ be4 n ++ r) = Ok (r, MkCH ((size - 4) mod 2 ^ 32) n).
Proof.
  intros Hs Hn. unfold decode_compound32. rewrite check_len_true by (rewrite !zlen_app, !zlen_be4; pose proof (zlen_nonneg r); lia). cbn [bind].
  rewrite (ztake_app 4 (be4 size)) by apply zlen_be4. rewrite be_val_be4 by exact Hs.
  assert (U : usub Release 32 size 4 = Ok ((size - 4) mod 2 ^ 32)).
  { unfold usub. destruct (Z.ltb_spec size 4); [reflexivity|]. rewrite Z.mod_small by lia. reflexivity. }
  rewrite U. cbn [bind]. rewrite (zdrop_app 4 (be4 size)) by apply zlen_be4. rewrite (ztake_app 4 (be4 n)) by apply zlen_be4. rewrite be_val_be4 by exact Hn.
  rewrite app_assoc. rewrite (zdrop_app 8) by (rewrite zlen_app, !zlen_be4; lia). reflexivity.
Qed.
Lemma compound_same n r : 0 <= n < 256 -> decode_compound8 Release (0 :: n :: r) = decode_compound32 Release (be4 259 ++ be4 n ++ r).
Proof. intros H. rewrite compound8_wraps, compound32_read by lia. reflexivity. Qed.
Lemma map_wraps {K V} (KO : key K) (dk : dec K) (dv : dec V) n r : 0 <= n < 256 ->
  decode (map_dec KO dk dv) Release ([0xc1; 0; n] ++ r) = decode (map_dec KO dk dv) Release ([0xd1] ++ be4 259 ++ be4 n ++ r).
Proof.
  intros H. cbn [app]. rewrite !decode_cons. unfold map_dec. change (decode_map_header Release (0 :: n :: r) 0xc1) with (decode_compound8 Release (0 :: n :: r)).
  change (decode_map_header Release (be4 259 ++ be4 n ++ r) 0xd1) with (decode_compound32 Release (be4 259 ++ be4 n ++ r)). now rewrite compound_same.
Qed.
Lemma list_wraps {T} (d : dec T) n r : 0 <= n < 256 ->
  decode (list_dec d) Release ([0xc0; 0; n] ++ r) = decode (list_dec d) Release ([0xd0] ++ be4 259 ++ be4 n ++ r).
Proof.
  intros H. cbn [app]. rewrite !decode_cons. unfold list_dec. change (decode_list_header Release (0 :: n :: r) 0xc0) with (decode_compound8 Release (0 :: n :: r)).
  change (decode_list_header Release (be4 259 ++ be4 n ++ r) 0xd0) with (decode_compound32 Release (be4 259 ++ be4 n ++ r)). now rewrite compound_same.
Qed.
Lemma vec_wraps {T} (d : dec T) n r : 0 <= n < 256 ->
  decode (vec_dec d) Release ([0xe0; 0; n] ++ r) = decode (vec_dec d) Release ([0xf0] ++ be4 259 ++ be4 n ++ r).
Proof.
  intros H. cbn [app]. rewrite !decode_cons. unfold vec_dec. change (decode_array_header Release (0 :: n :: r) 0xe0) with (decode_compound8 Release (0 :: n :: r)).
  change (decode_array_header Release (be4 259 ++ be4 n ++ r) 0xf0) with (decode_compound32 Release (be4 259 ++ be4 n ++ r)). now rewrite compound_same.
Qed.
Lemma open_wraps n r : 0 <= n < 256 -> open_list Release ([0xc0; 0; n] ++ r) = open_list Release ([0xd0] ++ be4 259 ++ be4 n ++ r).
Proof.
  intros H. cbn [app]. unfold open_list, decode_format_code. rewrite !read_u8_cons. cbn [bind].
  change (decode_list_header Release (0 :: n :: r) 0xc0) with (decode_compound8 Release (0 :: n :: r)).
  change (decode_list_header Release (be4 259 ++ be4 n ++ r) 0xd0) with (decode_compound32 Release (be4 259 ++ be4 n ++ r)). now rewrite compound_same.
Qed.
Lemma composite_opens K label : In K all_composites -> wire_label (k_code K) (k_name K) label -> forall md r r', open_list md r = open_list md r' ->
  decode (s_dec (composite_S K)) md (0x00 :: label ++ r) = decode (s_dec (composite_S K)) md (0x00 :: label ++ r').
Proof.
  intros HK W md r r' E. destruct (all_composites_ok K HK) as [Tr _]. rewrite !decode_cons. change (s_dec (composite_S K)) with (c_D (k_codec K)).
  rewrite (tr_dec K Tr). unfold composite_dec. cbn [validate_code FC_DESCRIBED Z.eqb bind].
  destruct (label_decodes (composite_D K) md label (tr_code K Tr) W) as (d & Dd & L). rewrite !Dd. cbn [bind].
  apply matches_labels in L. unfold matches in L. cbn [d_code d_name composite_D] in L. rewrite L. rewrite !composite_inner_eq by exact Tr. now rewrite E.
Qed.
Lemma composite_wraps K label n r : In K all_composites -> wire_label (k_code K) (k_name K) label -> 0 <= n < 256 ->
  decode (s_dec (composite_S K)) Release (0x00 :: label ++ [0xc0; 0; n] ++ r) = decode (s_dec (composite_S K)) Release (0x00 :: label ++ [0xd0] ++ be4 259 ++ be4 n ++ r).
Proof. intros HK W Hn. apply composite_opens; auto. now apply open_wraps. Qed.
Lemma composite_waits K label size n r : In K all_composites -> wire_label (k_code K) (k_name K) label -> 0 <= size < 4 -> 0 <= n < 2 ^ 32 -> zlen r < 2 ^ 32 - 4 + size ->
  decode (s_dec (composite_S K)) Release (0x00 :: label ++ [0xd0] ++ be4 size ++ be4 n ++ r) = Err (EIncomplete (Some (2 ^ 32 - 4 + size))).
Proof.
  intros HK W Hs Hn Hr. destruct (all_composites_ok K HK) as [Tr _]. rewrite !decode_cons. change (s_dec (composite_S K)) with (c_D (k_codec K)).
  rewrite (tr_dec K Tr). unfold composite_dec. cbn [validate_code FC_DESCRIBED Z.eqb bind].
  destruct (label_decodes (composite_D K) Release label (tr_code K Tr) W) as (d & Dd & L). rewrite !Dd. cbn [bind].
  apply matches_labels in L. unfold matches in L. cbn [d_code d_name composite_D] in L. rewrite L. rewrite !composite_inner_eq by exact Tr.
  cbn [app]. unfold open_list, decode_format_code. rewrite read_u8_cons. cbn [bind].
  change (decode_list_header Release (be4 size ++ be4 n ++ r) 0xd0) with (decode_compound32 Release (be4 size ++ be4 n ++ r)). rewrite compound32_read by lia. cbn [bind ch_size].
  replace ((size - 4) mod 2 ^ 32) with (2 ^ 32 - 4 + size) by (rewrite <- (Z.mod_small (2 ^ 32 - 4 + size) (2 ^ 32)) by lia; rewrite <- (Z.mod_add (size - 4) 1) by lia; f_equal; lia).
  unfold check_len. destruct (Z.ltb_spec (zlen r) (2 ^ 32 - 4 + size)); [reflexivity|lia].
Qed.
