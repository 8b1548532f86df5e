(** What the decoders of the primitive types accept, and nothing else; reading descriptors and composites. *)

From Coq Require Import String.
From Verif Require Import Definitions BaseFacts Utf8Spec Utf8Facts Valid Wire PrimFacts DecLaws EncLaws VariantFacts TypeSpec TypeFacts CompositeSpec
  CompositeFacts AllTypes AllTypesFacts CodecSpec EqFacts CodecFacts MapFacts ValueFacts.
From Coq Require Import ZifyBool.
Open Scope Z_scope.

Lemma be_read_inv size inp r v : bytes_ok inp -> 0 <= size -> be_read inp size = Ok (r, v) ->
  exists b, inp = b ++ r /\ zlen b = size /\ b = be_bytes (Z.to_nat size) v /\ 0 <= v < 256 ^ size /\ bytes_ok b.
Proof.
  intros Hb Hs E. unfold be_read, check_len in E. destruct (Z.ltb_spec (zlen inp) size); [discriminate|]. cbn [bind] in E. injection E as <- <-.
  pose proof (bytes_ok_ztake size inp Hb) as Ht. pose proof (zlen_ztake size inp ltac:(lia)) as Hl.
  exists (ztake size inp). split; [now rewrite ztake_zdrop|]. split; [exact Hl|]. split; [|split].
  - rewrite <- (be_bytes_be_val _ Ht) at 1. f_equal. unfold zlen in Hl. lia.
  - pose proof (be_val_range _ Ht) as R. now rewrite Hl in R.
  - exact Ht.
Qed.
Lemma be_read_inv2 inp r v : bytes_ok inp -> be_read inp 2 = Ok (r, v) -> inp = be2 v ++ r /\ 0 <= v < 2 ^ 16 /\ bytes_ok r.
Proof. intros H E. apply be_read_inv in E as (b & E1 & _ & E2 & R & _); [|exact H|lia]. change (Z.to_nat 2) with 2%nat in E2.
  rewrite be_bytes_be2 in E2. subst b. repeat split; try assumption; try apply R. rewrite E1 in H. now apply Forall_app in H as [_ H]. Qed.
Lemma be_read_inv4 inp r v : bytes_ok inp -> be_read inp 4 = Ok (r, v) -> inp = be4 v ++ r /\ 0 <= v < 2 ^ 32 /\ bytes_ok r.
Proof. intros H E. apply be_read_inv in E as (b & E1 & _ & E2 & R & _); [|exact H|lia]. change (Z.to_nat 4) with 4%nat in E2.
  rewrite be_bytes_be4 in E2. subst b. repeat split; try assumption; try apply R. rewrite E1 in H. now apply Forall_app in H as [_ H]. Qed.
Lemma be_read_inv8 inp r v : bytes_ok inp -> be_read inp 8 = Ok (r, v) -> inp = be8 v ++ r /\ 0 <= v < 2 ^ 64 /\ bytes_ok r.
Proof. intros H E. apply be_read_inv in E as (b & E1 & _ & E2 & R & _); [|exact H|lia]. change (Z.to_nat 8) with 8%nat in E2.
  rewrite be_bytes_be8 in E2. subst b. repeat split; try assumption; try apply R. rewrite E1 in H. now apply Forall_app in H as [_ H]. Qed.
Lemma read_u8_inv inp r v : bytes_ok inp -> read_u8 inp = Ok (r, v) -> inp = v :: r /\ 0 <= v < 256 /\ bytes_ok r.
Proof.
  intros H E. destruct inp as [|x inp]; [discriminate|]. inversion H as [|? ? Hx Hr]; subst. unfold read_u8 in E.
  rewrite check_len_true in E by (rewrite zlen_cons; pose proof (zlen_nonneg inp); lia). injection E as <- <-. auto.
Qed.
Lemma to_signed_shift k v : to_signed k v = v \/ to_signed k v = v - 2 ^ k.
Proof. unfold to_signed. destruct (v <? 2 ^ (k - 1)); auto. Qed.
Lemma to_signed_back k n v : 0 < n -> (n | 2 ^ k) -> to_signed k v mod n = v mod n.
Proof.
  intros Hn [q Hq]. destruct (to_signed_shift k v) as [->| ->]; [reflexivity|]. rewrite Hq. replace (v - q * n) with (v + (- q) * n) by lia.
  apply Z_mod_plus_full.
Qed.
Lemma be_bytes_signed (n : nat) k v : k = 8 * Z.of_nat n -> be_bytes n (to_signed k v) = be_bytes n v.
Proof.
  intros ->. assert (G : forall m a b, a mod 256 ^ Z.of_nat m = b mod 256 ^ Z.of_nat m -> be_bytes m a = be_bytes m b).
  { clear. induction m as [|m IH]; intros a b H; [reflexivity|]. cbn [be_bytes]. rewrite pow256_S in H.
    assert (Hp : 0 < 256 ^ Z.of_nat m) by (apply Z.pow_pos_nonneg; lia).
    f_equal.
    - apply IH.
      pose proof (Z.div_mod a 256 ltac:(lia)). pose proof (Z.div_mod b 256 ltac:(lia)).
      rewrite !(Z.rem_mul_r _ 256) in H by lia. pose proof (Z.mod_pos_bound a 256 ltac:(lia)). pose proof (Z.mod_pos_bound b 256 ltac:(lia)). lia.
    - f_equal. rewrite !(Z.rem_mul_r _ 256) in H by lia. pose proof (Z.mod_pos_bound a 256 ltac:(lia)). pose proof (Z.mod_pos_bound b 256 ltac:(lia)). lia. }
  apply G. apply to_signed_back; [apply Z.pow_pos_nonneg; lia|]. rewrite Z.pow_mul_r by lia. now exists 1; rewrite Z.mul_1_l.
Qed.

Definition reads_only {T} (L : T -> bytes -> Prop) (d : dec T) : Prop := forall md inp rest v,
  bytes_ok inp -> decode d md inp = Ok (rest, v) -> exists bs, inp = bs ++ rest /\ L v bs.
Lemma reads_only_cons {T} (L : T -> bytes -> Prop) (d : dec T) :
  (forall md c i rest v, byte_ok c -> bytes_ok i -> d md i c = Ok (rest, v) -> exists b, i = b ++ rest /\ L v (c :: b)) -> reads_only L d.
Proof.
  intros H md inp rest v Hb E. destruct inp as [|c i]; [discriminate|]. rewrite decode_cons in E. inversion Hb; subst.
  apply H in E as (b & -> & HL); auto. now exists (c :: b).
Qed.
Ltac ro := apply reads_only_cons; intros md c i rest v Hc Hi E.
Ltac codes E := unfold validate_code in E; repeat match type of E with
  | context [?x =? ?y] => destruct (Z.eqb_spec x y); subst; cbn [bind] in E
  end; try discriminate.
Lemma bool_ro : reads_only read_boolean bool_dec.
Proof.
  ro. unfold bool_dec in E. codes E.
  - apply bind_ok in E as [[j o] [E1 E]]. apply read_u8_inv in E1 as (-> & R & _); [|exact Hi]. injection E as -> <-. exists [o]. split; [reflexivity|].
    destruct (Z.eqb_spec o 0) as [->|N]; [left; constructor|]. destruct (Z.eq_dec o 1) as [->|N1]; [left; constructor|].
    right. split; [reflexivity|]. exists o. split; [lia|reflexivity].
  - injection E as <- <-. exists []. split; [reflexivity|left; constructor].
  - injection E as <- <-. exists []. split; [reflexivity|left; constructor].
Qed.
Lemma u8_ro : reads_only (s_wire u8_S) u8_dec.
Proof. ro. unfold u8_dec in E. codes E. apply read_u8_inv in E as (-> & R & _); [|exact Hi]. exists [v]. now split. Qed.
Lemma u16_ro : reads_only (s_wire u16_S) u16_dec.
Proof. ro. unfold u16_dec in E. codes E. apply be_read_inv2 in E as (-> & R & _); [|exact Hi]. exists (be2 v). now split. Qed.
Lemma u32_ro : reads_only (s_wire u32_S) u32_dec.
Proof.
  ro. unfold u32_dec in E. codes E.
  - apply be_read_inv4 in E as (-> & R & _); [|exact Hi]. exists (be4 v). split; [reflexivity|now constructor].
  - apply read_u8_inv in E as (-> & R & _); [|exact Hi]. exists [v]. split; [reflexivity|now constructor].
  - injection E as <- <-. exists []. split; [reflexivity|constructor].
Qed.
Lemma u64_ro : reads_only (s_wire u64_S) u64_dec.
Proof.
  ro. unfold u64_dec in E. codes E.
  - apply be_read_inv8 in E as (-> & R & _); [|exact Hi]. exists (be8 v). split; [reflexivity|now constructor].
  - apply read_u8_inv in E as (-> & R & _); [|exact Hi]. exists [v]. split; [reflexivity|now constructor].
  - injection E as <- <-. exists []. split; [reflexivity|constructor].
Qed.
Lemma read_i8_inv inp r v : bytes_ok inp -> read_i8 inp = Ok (r, v) -> inp = v mod 256 :: r /\ - 128 <= v < 128.
Proof.
  intros H E. unfold read_i8 in E. apply bind_ok in E as [[j o] [E1 E]]. apply read_u8_inv in E1 as (-> & R & _); [|exact H]. injection E as <- <-.
  split; [|exact (to_signed_range 8 o ltac:(lia) R)]. f_equal. rewrite to_signed_back by (lia || (exists 1; reflexivity)). rewrite Z.mod_small; lia.
Qed.
Lemma be_read_signed_inv2 inp r v : bytes_ok inp -> be_read_signed inp 2 = Ok (r, v) -> inp = be2 v ++ r /\ - 2 ^ 15 <= v < 2 ^ 15.
Proof.
  intros H E. unfold be_read_signed in E. apply bind_ok in E as [[j o] [E1 E]]. apply be_read_inv2 in E1 as (-> & R & _); [|exact H]. injection E as <- <-.
  split; [|exact (to_signed_range 16 o ltac:(lia) R)]. now rewrite <- !be_bytes_be2, (be_bytes_signed 2).
Qed.
Lemma be_read_signed_inv4 inp r v : bytes_ok inp -> be_read_signed inp 4 = Ok (r, v) -> inp = be4 v ++ r /\ - 2 ^ 31 <= v < 2 ^ 31.
Proof.
  intros H E. unfold be_read_signed in E. apply bind_ok in E as [[j o] [E1 E]]. apply be_read_inv4 in E1 as (-> & R & _); [|exact H]. injection E as <- <-.
  split; [|exact (to_signed_range 32 o ltac:(lia) R)]. now rewrite <- !be_bytes_be4, (be_bytes_signed 4).
Qed.
Lemma be_read_signed_inv8 inp r v : bytes_ok inp -> be_read_signed inp 8 = Ok (r, v) -> inp = be8 v ++ r /\ - 2 ^ 63 <= v < 2 ^ 63.
Proof.
  intros H E. unfold be_read_signed in E. apply bind_ok in E as [[j o] [E1 E]]. apply be_read_inv8 in E1 as (-> & R & _); [|exact H]. injection E as <- <-.
  split; [|exact (to_signed_range 64 o ltac:(lia) R)]. now rewrite <- !be_bytes_be8, (be_bytes_signed 8).
Qed.
Lemma i8_ro : reads_only (s_wire i8_S) i8_dec.
Proof. ro. unfold i8_dec in E. codes E. apply read_i8_inv in E as (-> & R); [|exact Hi]. exists [v mod 256]. now split. Qed.
Lemma i16_ro : reads_only (s_wire i16_S) i16_dec.
Proof. ro. unfold i16_dec in E. codes E. apply be_read_signed_inv2 in E as (-> & R); [|exact Hi]. exists (be2 v). now split. Qed.
Lemma i32_ro : reads_only (s_wire i32_S) i32_dec.
Proof.
  ro. unfold i32_dec in E. codes E.
  - apply be_read_signed_inv4 in E as (-> & R); [|exact Hi]. exists (be4 v). split; [reflexivity|now constructor].
  - apply read_i8_inv in E as (-> & R); [|exact Hi]. exists [v mod 256]. split; [reflexivity|now constructor].
Qed.
Lemma i64_ro : reads_only (s_wire i64_S) i64_dec.
Proof.
  ro. unfold i64_dec in E. codes E.
  - apply be_read_signed_inv8 in E as (-> & R); [|exact Hi]. exists (be8 v). split; [reflexivity|now constructor].
  - apply read_i8_inv in E as (-> & R); [|exact Hi]. exists [v mod 256]. split; [reflexivity|now constructor].
Qed.
Lemma f32_ro : reads_only (s_wire f32_S) f32_dec.
Proof. ro. unfold f32_dec in E. codes E. apply be_read_inv4 in E as (-> & R & _); [|exact Hi]. exists (be4 v). now split. Qed.
Lemma f64_ro : reads_only (s_wire f64_S) f64_dec.
Proof. ro. unfold f64_dec in E. codes E. apply be_read_inv8 in E as (-> & R & _); [|exact Hi]. exists (be8 v). now split. Qed.
Lemma char_ro : reads_only (s_wire char_S) char_dec.
Proof.
  ro. pose proof E as E0. unfold char_dec in E. codes E. apply bind_ok in E as [[j o] [E1 E]]. apply be_read_inv4 in E1 as (-> & R & _); [|exact Hi].
  destruct (char_ok o) eqn:C; [|discriminate]. injection E as <- <-. exists (be4 o). split; [reflexivity|]. split; [|reflexivity].
  now apply char_ok_spec.
Qed.
Definition read_timestamp (t : datetime) (bs : bytes) : Prop := exists ms, - 2 ^ 63 <= ms < 2 ^ 63 /\ bs = 0x83 :: be8 ms /\
    t = read_instant ms /\ chrono_min_secs <= dt_secs t <= chrono_max_secs.
Lemma from_millis_read ms : - 2 ^ 63 <= ms < 2 ^ 63 ->
  datetime_from_millis ms = if (chrono_min_secs <=? dt_secs (read_instant ms)) && (dt_secs (read_instant ms) <=? chrono_max_secs)
                            then Ok (read_instant ms) else Panic PChrono.
Proof.
  intros R. unfold read_instant. pose proof (Z.div_mod ms 1000 ltac:(lia)) as DM. pose proof (Z.mod_pos_bound ms 1000 ltac:(lia)) as MB.
  pose proof (Z.div_mod (- ms) 1000 ltac:(lia)) as DM'. pose proof (Z.mod_pos_bound (- ms) 1000 ltac:(lia)) as MB'.
  destruct (Z.le_gt_cases 0 ms) as [P|P].
  - rewrite from_millis_late by exact P. replace ((-1000 <? ms) && (ms <? 0)) with false by lia. replace (ms <? 0) with false by lia. cbn [andb].
    cbn [instant dt_secs]. unfold chrono_min_secs, chrono_max_secs. replace (-8334632851200 <=? ms / 1000) with true by lia. reflexivity.
  - destruct (Z.le_gt_cases ms (-1000)) as [Q|Q].
    + rewrite from_millis_early by exact Q. replace ((-1000 <? ms) && (ms <? 0)) with false by lia. replace (ms <? 0) with true by lia. cbn [andb].
      unfold chrono_min_secs, chrono_max_secs. destruct (Z.eqb_spec (ms mod 1000) 0); cbn [instant dt_secs].
      * replace (ms / 1000 - 1 <=? 8210298412799) with true by lia. now rewrite andb_true_r.
      * replace (ms / 1000 <=? 8210298412799) with true by lia. now rewrite andb_true_r.
    + rewrite from_millis_mirrored by lia. replace ((-1000 <? ms) && (ms <? 0)) with true by lia. cbn [instant dt_secs].
      unfold chrono_min_secs, chrono_max_secs. replace (-8334632851200 <=? - ms / 1000) with true by lia.
      replace (- ms / 1000 <=? 8210298412799) with true by lia. reflexivity.
Qed.
Lemma datetime_ro : reads_only read_timestamp datetime_dec.
Proof.
  ro. unfold datetime_dec in E. codes E. apply bind_ok in E as [[j ms] [E1 E]]. apply be_read_signed_inv8 in E1 as (-> & R); [|exact Hi].
  rewrite from_millis_read in E by exact R. destruct (_ && _) eqn:C; [|discriminate]. injection E as <- <-. exists (be8 ms). split; [reflexivity|].
  exists ms. split; [exact R|]. split; [reflexivity|]. split; [reflexivity|]. lia.
Qed.
Lemma slice_inv len i j b : check_len i len = Ok tt -> Ok (zdrop len i, ztake len i) = Ok (j, b) -> 0 <= len -> i = b ++ j /\ zlen b = len.
Proof.
  intros E1 [= <- <-] Hl. unfold check_len in E1. destruct (Z.ltb_spec (zlen i) len); [discriminate|]. split; [now rewrite ztake_zdrop|].
  apply zlen_ztake. lia.
Qed.
Lemma uuid_ro : reads_only (s_wire uuid_S) uuid_dec.
Proof.
  ro. unfold uuid_dec in E. codes E. apply bind_ok in E as [[] [E1 E]]. apply slice_inv in E as [-> L]; [|exact E1|lia].
  exists v. split; [reflexivity|]. split; [|reflexivity]. split; [|exact L]. now apply Forall_app in Hi as [Hi _].
Qed.
Lemma read_bytes_u8_inv i j b : bytes_ok i -> read_bytes_u8 i = Ok (j, b) -> i = zlen b :: b ++ j /\ zlen b < 2 ^ 8 /\ bytes_ok b.
Proof.
  intros H E. unfold read_bytes_u8 in E. apply bind_ok in E as [[i1 len] [E1 E]]. apply read_u8_inv in E1 as (-> & R & H1); [|exact H].
  apply bind_ok in E as [[] [E1 E]]. apply slice_inv in E as [-> L]; [|exact E1|lia]. rewrite L. split; [reflexivity|]. split; [lia|].
  now apply Forall_app in H1 as [H1 _].
Qed.
Lemma read_bytes_u32_inv i j b : bytes_ok i -> read_bytes_u32 i = Ok (j, b) -> i = be4 (zlen b) ++ b ++ j /\ zlen b < 2 ^ 32 /\ bytes_ok b.
Proof.
  intros H E. unfold read_bytes_u32 in E. apply bind_ok in E as [[i1 len] [E1 E]]. apply be_read_inv4 in E1 as (-> & R & H1); [|exact H].
  apply bind_ok in E as [[] [E1 E]]. apply slice_inv in E as [-> L]; [|exact E1|lia]. rewrite L. split; [reflexivity|]. split; [lia|].
  now apply Forall_app in H1 as [H1 _].
Qed.
Lemma bin_ro : reads_only (s_wire bin_S) bin_dec.
Proof.
  ro. unfold bin_dec in E. codes E.
  - apply read_bytes_u8_inv in E as (-> & R & H); [|exact Hi]. exists (zlen v :: v). split; [reflexivity|]. split; [exact H|now constructor].
  - apply read_bytes_u32_inv in E as (-> & R & H); [|exact Hi]. exists (be4 (zlen v) ++ v). split; [now rewrite app_assoc|]. split; [exact H|now constructor].
Qed.
Lemma from_utf8_inv b s : bytes_ok b -> from_utf8 b = Ok s -> s = b /\ is_utf8 b.
Proof.
  intros H E. unfold from_utf8 in E. destruct (utf8_valid b) eqn:V; [|discriminate]. injection E as <-. split; [reflexivity|]. now apply (utf8_valid_text (length b)).
Qed.
Lemma text_inv8 i rest {T} (v : T) (mk : bytes -> T) : bytes_ok i ->
  ('(j, b) <- read_bytes_u8 i ;; s <- from_utf8 b ;; Ok (j, mk s)) = Ok (rest, v) ->
  exists b, i = zlen b :: b ++ rest /\ zlen b < 2 ^ 8 /\ is_utf8 b /\ v = mk b.
Proof.
  intros Hi E. apply bind_ok in E as [[j b] [E1 E]]. apply bind_ok in E as [s [E2 E]]. apply read_bytes_u8_inv in E1 as (-> & R & H); [|exact Hi].
  apply from_utf8_inv in E2 as [-> U]; [|exact H]. injection E as <- <-. now exists b.
Qed.
Lemma text_inv32 i rest {T} (v : T) (mk : bytes -> T) : bytes_ok i ->
  ('(j, b) <- read_bytes_u32 i ;; s <- from_utf8 b ;; Ok (j, mk s)) = Ok (rest, v) ->
  exists b, i = be4 (zlen b) ++ b ++ rest /\ zlen b < 2 ^ 32 /\ is_utf8 b /\ v = mk b.
Proof.
  intros Hi E. apply bind_ok in E as [[j b] [E1 E]]. apply bind_ok in E as [s [E2 E]]. apply read_bytes_u32_inv in E1 as (-> & R & H); [|exact Hi].
  apply from_utf8_inv in E2 as [-> U]; [|exact H]. injection E as <- <-. now exists b.
Qed.
Lemma bstr_ro : reads_only (s_wire bstr_S) bstr_dec.
Proof.
  ro. unfold bstr_dec in E. codes E; [apply (text_inv8 _ _ _ (fun s => s) Hi) in E as (b & -> & R & U & ->)|apply (text_inv32 _ _ _ (fun s => s) Hi) in E as (b & -> & R & U & ->)].
  - exists (zlen b :: b). split; [reflexivity|]. split; [exact U|now constructor].
  - exists (be4 (zlen b) ++ b). split; [now rewrite app_assoc|]. split; [exact U|now constructor].
Qed.
Lemma str_ro : reads_only (s_wire str_S) str_dec.
Proof.
  ro. unfold str_dec in E. codes E; [apply (text_inv8 _ _ _ str_from_str Hi) in E as (b & -> & R & U & ->)|apply (text_inv32 _ _ _ str_from_str Hi) in E as (b & -> & R & U & ->)].
  - exists (zlen b :: b). split; [reflexivity|]. exists b. split; [reflexivity|]. split; [exact U|now constructor].
  - exists (be4 (zlen b) ++ b). split; [now rewrite app_assoc|]. exists b. split; [reflexivity|]. split; [exact U|now constructor].
Qed.
Lemma symbol_ro : reads_only (s_wire symbol_S) symbol_dec.
Proof.
  ro. unfold symbol_dec in E. codes E; [apply (text_inv8 _ _ _ symbol_from_slice Hi) in E as (b & -> & R & U & ->)|apply (text_inv32 _ _ _ symbol_from_slice Hi) in E as (b & -> & R & U & ->)].
  - exists (zlen b :: b). split; [reflexivity|]. exists b. split; [reflexivity|]. split; [exact U|now constructor].
  - exists (be4 (zlen b) ++ b). split; [now rewrite app_assoc|]. exists b. split; [reflexivity|]. split; [exact U|now constructor].
Qed.

Lemma enum_ro {T B} (SB : tspec B) (L : B -> bytes -> Prop) (tryf : B -> res T) (table : list (T * B)) :
  reads_only L (s_dec SB) -> (forall b x, tryf b = Ok x -> In (x, b) table) ->
  reads_only (fun x bs => exists b, In (x, b) table /\ L b bs) (enum_dec (s_dec SB) tryf).
Proof.
  intros HB HT md inp rest x Hb E. destruct inp as [|c i]; [discriminate|]. rewrite decode_cons in E. unfold enum_dec in E.
  apply bind_ok in E as [[j b] [E1 E]]. apply bind_ok in E as [y [E2 E]]. injection E as -> ->.
  destruct (HB md (c :: i) rest b Hb) as (bs & E & H); [now rewrite decode_cons|]. exists bs. split; [exact E|]. exists b. split; [now apply HT|exact H].
Qed.
Lemma symbol_enum_ro {T} (tryf : symbol -> res T) (table : list (T * string)) :
  (forall b x, tryf (SByteStr b) = Ok x -> exists t, In (x, t) table /\ b = s2b t) ->
  reads_only (fun x bs => exists t, In (x, t) table /\ wire_name t bs) (enum_dec symbol_dec tryf).
Proof.
  intros HT md inp rest x Hb E. destruct inp as [|c i]; [discriminate|]. rewrite decode_cons in E. unfold enum_dec in E.
  apply bind_ok in E as [[j b] [E1 E]]. apply bind_ok in E as [y [E2 E]]. injection E as -> ->.
  destruct (symbol_ro md (c :: i) rest b Hb) as (bs & E & t & -> & W); [now rewrite decode_cons|]. exists bs. split; [exact E|].
  apply HT in E2 as (u & Hin & ->). now exists u.
Qed.
Ltac ifs_in E := repeat match type of E with (if ?c then _ else _) = _ => destruct c eqn:? end; try discriminate.
Ltac z_table tf := intros b x E; unfold tf in E; ifs_in E; injection E as <-;
  match goal with H : (b =? _) = true |- _ => apply Z.eqb_eq in H; subst b end; vm_compute; repeat (first [left; reflexivity|right]).
Ltac s_table tf := intros b x E; unfold tf in E; ifs_in E; injection E as <-;
  match goal with H : sym_is (SByteStr b) ?t = true |- _ => unfold sym_is in H; cbn [str_bytes] in H; apply bytes_eqb_eq in H; exists t; split; [|exact H] end;
  repeat (first [left; reflexivity|right]).
Lemma role_ro : reads_only (fun x bs => exists b, In (x, b) role_table /\ read_boolean b bs) (s_dec role_S).
Proof. apply (enum_ro bool_S _ role_try_from); [exact bool_ro|]. intros [|] x E; injection E as <-; vm_compute; auto. Qed.
Lemma sender_settle_mode_ro : reads_only (s_wire sender_settle_mode_S) (s_dec sender_settle_mode_S).
Proof. apply (enum_ro u8_S _ sender_settle_mode_try_from); [exact u8_ro|z_table sender_settle_mode_try_from]. Qed.
Lemma receiver_settle_mode_ro : reads_only (s_wire receiver_settle_mode_S) (s_dec receiver_settle_mode_S).
Proof. apply (enum_ro u8_S _ receiver_settle_mode_try_from); [exact u8_ro|z_table receiver_settle_mode_try_from]. Qed.
Lemma sasl_code_ro : reads_only (s_wire sasl_code_S) (s_dec sasl_code_S).
Proof. apply (enum_ro u8_S _ sasl_code_try_from); [exact u8_ro|z_table sasl_code_try_from]. Qed.
Lemma terminus_durability_ro : reads_only (s_wire terminus_durability_S) (s_dec terminus_durability_S).
Proof. apply (enum_ro u32_S _ terminus_durability_try_from); [exact u32_ro|z_table terminus_durability_try_from]. Qed.
Lemma terminus_expiry_policy_ro : reads_only (s_wire terminus_expiry_policy_S) (s_dec terminus_expiry_policy_S).
Proof. apply (symbol_enum_ro terminus_expiry_policy_try_from). s_table terminus_expiry_policy_try_from. Qed.
Lemma amqp_error_ro : reads_only (s_wire amqp_error_S) (s_dec amqp_error_S).
Proof. apply (symbol_enum_ro amqp_error_try_from). s_table amqp_error_try_from. Qed.
Lemma connection_error_ro : reads_only (s_wire connection_error_S) (s_dec connection_error_S).
Proof. apply (symbol_enum_ro connection_error_try_from). s_table connection_error_try_from. Qed.
Lemma session_error_ro : reads_only (s_wire session_error_S) (s_dec session_error_S).
Proof. apply (symbol_enum_ro session_error_try_from). s_table session_error_try_from. Qed.
Lemma link_error_ro : reads_only (s_wire link_error_S) (s_dec link_error_S).
Proof. apply (symbol_enum_ro link_error_try_from). s_table link_error_try_from. Qed.
Lemma open_enum_ro {T} (of_symbol : symbol -> T) (table : list (T * string)) (custom : symbol -> T) :
  (forall b, of_symbol (SByteStr b) = match lookup_name b table with Some y => y | None => custom (SByteStr b) end) ->
  reads_only (fun x bs => exists b, wire_symbol b bs /\ x = match lookup_name b table with Some y => y | None => custom (SByteStr b) end)
    (fun md inp fmt => '(i, s) <- symbol_dec md inp fmt ;; Ok (i, of_symbol s)).
Proof.
  intros HT md inp rest x Hb E. destruct inp as [|c i]; [discriminate|]. rewrite decode_cons in E.
  apply bind_ok in E as [[j b] [E1 E]]. injection E as -> <-.
  destruct (symbol_ro md (c :: i) rest b Hb) as (bs & E & t & -> & W); [now rewrite decode_cons|]. exists bs. split; [exact E|].
  exists t. split; [exact W|apply HT].
Qed.
Lemma error_condition_ro : reads_only (s_wire error_condition_S) (s_dec error_condition_S).
Proof. apply (open_enum_ro error_condition_of_symbol). exact condition_of_text. Qed.
Lemma distribution_mode_ro : reads_only (s_wire distribution_mode_S) (s_dec distribution_mode_S).
Proof.
  apply (open_enum_ro distribution_mode_of_symbol). intros b. unfold distribution_mode_of_symbol, sym_is. cbn [str_bytes lookup_name distribution_table].
  destruct (bytes_eqb b (s2b "move")); [reflexivity|]. now destruct (bytes_eqb b (s2b "copy")).
Qed.
Lemma map_res_ok {A B} (f : A -> B) (x : res (bytes * A)) rest w : map_res f x = Ok (rest, w) -> exists v, x = Ok (rest, v) /\ w = f v.
Proof. destruct x as [[r v]| | |]; cbn [map_res bind]; try discriminate. intros [= -> <-]. now exists v. Qed.
Lemma codes_nonempty {T} (L : T -> bytes -> Prop) (d : dec T) md c i rest v : reads_only L d -> (forall a, ~ L a []) ->
  byte_ok c -> bytes_ok i -> d md i c = Ok (rest, v) -> exists b, i = b ++ rest /\ L v (c :: b).
Proof.
  intros R N Hc Hi E. destruct (R md (c :: i) rest v) as (bs & E2 & H); [now constructor|now rewrite decode_cons|].
  destruct bs as [|x b]; [now apply N in H|]. injection E2 as -> ->. now exists b.
Qed.
Lemma wire_var_nonempty c8 c32 b : ~ wire_var c8 c32 b []. Proof. intros H. inversion H. Qed.
Lemma message_id_ro : reads_only (s_wire message_id_S) (s_dec message_id_S).
Proof.
  ro. unfold s_dec in E. change (message_id_dec md i c = Ok (rest, v)) in E. unfold message_id_dec in E.
  destruct ((c =? FC_SMALLULONG) || (c =? FC_ULONG) || (c =? FC_ULONG_0)).
  { apply map_res_ok in E as (a & E & ->). apply (codes_nonempty _ _ _ _ _ _ _ u64_ro) in E; auto. intros x H. inversion H. }
  destruct (c =? FC_UUID).
  { apply map_res_ok in E as (a & E & ->). apply (codes_nonempty _ _ _ _ _ _ _ uuid_ro) in E; auto. intros x [_ H]. discriminate. }
  destruct ((c =? FC_BINARY8) || (c =? FC_BINARY32)).
  { apply map_res_ok in E as (a & E & ->). apply (codes_nonempty _ _ _ _ _ _ _ bin_ro) in E; auto. intros x [_ H]. now apply wire_var_nonempty in H. }
  destruct ((c =? FC_STRING8) || (c =? FC_STRING32)); [|discriminate].
  apply map_res_ok in E as (a & E & ->). apply (codes_nonempty _ _ _ _ _ _ _ bstr_ro) in E; auto. intros x [_ H]. now apply wire_var_nonempty in H.
Qed.
Lemma option_ro {T} (S : tspec T) (L : T -> bytes -> Prop) : reads_only L (s_dec S) ->
  reads_only (fun o bs => match o with Some x => L x bs | None => bs = [0x40] end) (s_dec (option_S S)).
Proof.
  intros R md inp rest v Hb E. destruct inp as [|c i]; [discriminate|]. rewrite decode_cons in E.
  change (option_dec (s_dec S) md i c = Ok (rest, v)) in E. unfold option_dec in E. destruct (Z.eqb_spec c FC_NULL) as [->|N].
  - injection E as <- <-. now exists [0x40].
  - apply map_res_ok in E as (a & E & ->). apply (R md (c :: i) rest a Hb). now rewrite decode_cons.
Qed.
Lemma language_only {T} (S : tspec T) L : language S L -> reads_only L (s_dec S).
Proof.
  induction 1; first [exact bool_ro|exact u8_ro|exact u16_ro|exact u32_ro|exact u64_ro|exact i8_ro|exact i16_ro|exact i32_ro|exact i64_ro|
    exact f32_ro|exact f64_ro|exact char_ro|exact datetime_ro|exact uuid_ro|exact bin_ro|exact bstr_ro|exact str_ro|exact symbol_ro|exact role_ro|
    exact sender_settle_mode_ro|exact receiver_settle_mode_ro|exact sasl_code_ro|exact terminus_durability_ro|exact terminus_expiry_policy_ro|
    exact amqp_error_ro|exact connection_error_ro|exact session_error_ro|exact link_error_ro|exact error_condition_ro|exact distribution_mode_ro|
    exact message_id_ro|now apply option_ro].
Qed.
Lemma read_boolean_all md b bs rest : read_boolean b bs -> decode bool_dec md (bs ++ rest) = Ok (rest, b).
Proof.
  intros [W|(-> & x & R & ->)]; [exact (type_accepts bool_S ty_bool md b bs rest W I)|].
  cbn [app]. rewrite decode_cons. unfold bool_dec. change (FC_BOOLEAN =? FC_BOOLEAN) with true. cbn iota.
  change (0x56 =? FC_BOOLEAN) with true. cbn iota. unfold read_u8. rewrite check_len_true by (rewrite zlen_cons; pose proof (zlen_nonneg rest); lia).
  cbn [bind]. do 3 f_equal. destruct (Z.eqb_spec x 0); [lia|reflexivity].
Qed.
Lemma language_type {T} (S : tspec T) L : language S L -> amqp_type S.
Proof. induction 1; constructor; assumption. Qed.
Lemma language_all {T} (S : tspec T) L : language S L -> forall md v bs rest, L v bs -> decode (s_dec S) md (bs ++ rest) = Ok (rest, v).
Proof.
  induction 1; intros md v bs rest W; try (solve [apply type_accepts; [constructor|exact W|exact I]]).
  - now apply read_boolean_all.
  - destruct W as (ms & R & -> & -> & C). cbn [app]. change (s_dec datetime_S) with datetime_dec. rewrite datetime_read by exact R.
    rewrite from_millis_read by exact R. destruct (_ && _) eqn:E; [reflexivity|lia].
  - destruct W as (b & Hin & W). change (s_dec role_S) with (enum_dec bool_dec role_try_from). pose proof (read_boolean_all md b bs rest W) as E.
    unfold decode in *. destruct (decode_format_code (bs ++ rest)) as [[i f]|e|p|]; cbn [bind] in *; try discriminate. unfold enum_dec. rewrite E. cbn [bind].
    destruct Hin as [[= <- <-]|[[= <- <-]|[]]]; reflexivity.
  - destruct v as [x|].
    + specialize (IHlanguage md x bs rest W). pose proof (language_type _ _ H) as TY. destruct bs as [|c b].
      * destruct (type_prefix _ TY _ _ _ _ IHlanguage) as (p & E & NE). destruct p as [|y p]; [now destruct NE|]. exfalso.
        apply (f_equal (@length Z)) in E. cbn [app length] in E. rewrite app_length in E. lia.
      * cbn [app] in *. rewrite decode_cons. change (s_dec (option_S S)) with (option_dec (s_dec S)). unfold option_dec.
        destruct (Z.eqb_spec c FC_NULL) as [->|N].
        -- rewrite (type_reject _ TY md FC_NULL (b ++ rest) H0) in IHlanguage. discriminate.
        -- rewrite decode_cons in IHlanguage. now rewrite IHlanguage.
    + subst bs. cbn [app]. now rewrite decode_cons.
Qed.
Lemma language_exact {T} (S : tspec T) L : language S L -> forall md inp rest v, bytes_ok inp ->
  (decode (s_dec S) md inp = Ok (rest, v) <-> exists bs, inp = bs ++ rest /\ L v bs).
Proof.
  intros H md inp rest v Hb. split; [now apply (language_only S L H)|]. intros (bs & -> & W). now apply (language_all S L H).
Qed.
Lemma datetime_read_instant md ms rest : - 2 ^ 63 <= ms < 2 ^ 63 ->
  decode datetime_dec md (0x83 :: be8 ms ++ rest) =
  if (chrono_min_secs <=? dt_secs (read_instant ms)) && (dt_secs (read_instant ms) <=? chrono_max_secs)
  then Ok (rest, read_instant ms) else Panic PChrono.
Proof. intros R. rewrite datetime_read, from_millis_read by exact R. now destruct (_ && _). Qed.

(** ** Descriptors and composites *)
Lemma descriptor_read md inp rest d : bytes_ok inp -> decode descriptor_dec md inp = Ok (rest, d) ->
  exists label, inp = label ++ rest /\ wire_descriptor d label.
Proof.
  intros Hb. revert md inp rest d Hb. change (reads_only wire_descriptor descriptor_dec). ro. unfold descriptor_dec in E.
  assert (GU : map_res DUlong (u64_dec md i c) = Ok (rest, v) -> exists b, i = b ++ rest /\ wire_descriptor v (c :: b)).
  { intros E1. apply map_res_ok in E1 as (a & E1 & ->). apply (codes_nonempty _ _ _ _ _ _ _ u64_ro) in E1 as (b & -> & W); auto.
    - exists b. split; [reflexivity|now constructor].
    - intros x H. inversion H. }
  assert (GS : map_res DSymbol (symbol_dec md i c) = Ok (rest, v) -> exists b, i = b ++ rest /\ wire_descriptor v (c :: b)).
  { intros E1. apply map_res_ok in E1 as (a & E1 & ->). apply (codes_nonempty _ _ _ _ _ _ _ symbol_ro) in E1 as (b & -> & t & -> & W); auto.
    - exists b. split; [reflexivity|now constructor].
    - intros x (t & _ & _ & H). now apply wire_var_nonempty in H. }
  destruct (c =? FC_SMALLULONG); [auto|]. destruct (c =? FC_ULONG); [auto|]. destruct (c =? FC_SYMBOL8); [auto|].
  destruct (c =? FC_SYMBOL32); [auto|discriminate].
Qed.
Lemma open_list_window md inp s rem : bytes_ok inp -> open_list md inp = Ok (s, rem) ->
  exists hdr, inp = hdr ++ fst s ++ rem /\ list_header md (snd s) (zlen (fst s)) hdr.
Proof.
  intros Hb E. unfold open_list in E. apply bind_ok in E as [[i1 c] [E1 E]]. apply bind_ok in E as [[i2 h] [E2 E]]. apply bind_ok in E as [[] [E3 E]].
  injection E as <- <-. cbn [fst snd]. destruct inp as [|c' i]; [discriminate|].
  change (Ok (i, c') = Ok (i1, c)) in E1 || (unfold decode_format_code in E1; apply read_u8_inv in E1 as (E1 & _ & H1); [|exact Hb]; injection E1 as -> ->).
  inversion Hb as [|? ? Hc Hi]; subst. destruct (list_header_inv _ _ _ _ _ Hi E2) as (hdr & EH & MH).
  unfold check_len in E3. destruct (Z.ltb_spec (zlen i2) (ch_size h)); [discriminate|].
  assert (0 <= ch_size h) by (destruct MH as [(_ & -> & _)|[(_ & [? _] & _)|(_ & [? _] & _)]]; lia).
  exists hdr. rewrite ztake_zdrop. split; [exact EH|]. rewrite zlen_ztake by lia. exact MH.
Qed.
Lemma composite_dec_eq K : In K all_composites -> s_dec (composite_S K) = composite_dec (k_code K) (k_name K) (k_inner K).
Proof. intros H. exact (tr_dec _ (proj1 (all_composites_ok K H))). Qed.
Lemma composite_window K md inp rest v : In K all_composites -> bytes_ok inp ->
  decode (s_dec (composite_S K)) md inp = Ok (rest, v) ->
  exists label n hdr content, inp = 0x00 :: label ++ hdr ++ content ++ rest /\ wire_label (k_code K) (k_name K) label /\
    list_header md n (zlen content) hdr.
Proof.
  intros HK Hb E. rewrite (composite_dec_eq K HK) in E. destruct inp as [|c i]; [discriminate|]. rewrite decode_cons in E.
  inversion Hb as [|? ? Hc Hi]; subst. unfold composite_dec in E. unfold validate_code in E. destruct (Z.eqb_spec c FC_DESCRIBED) as [->|]; [|discriminate].
  cbn [bind] in E. apply bind_ok in E as [[i1 d] [E1 E]]. apply descriptor_read in E1 as (label & -> & W); [|exact Hi].
  change ((if matches (k_code K) (k_name K) d then k_inner K md i1 else Err (EInvalidDescriptor d)) = Ok (rest, v)) in E.
  destruct (matches (k_code K) (k_name K) d) eqn:M; [|discriminate].
  rewrite (composite_inner_eq K md i1 (proj1 (all_composites_ok K HK))) in E. apply bind_ok in E as [[s rem] [E2 E]].
  apply bind_ok in E as [x [E3 E]]. injection E as -> ->. apply Forall_app in Hi as [_ Hi].
  apply open_list_window in E2 as (hdr & -> & H); [|exact Hi].
  exists label, (snd s), hdr, (fst s). split; [reflexivity|]. split; [|exact H].
  apply (matches_labels (composite_D K)) in M. destruct W as [u bs W|t bs W]; cbn [labels composite_D d_code d_name str_bytes] in M; subst; [now left|now right].
Qed.
Lemma composite_other K md label d rest : In K all_composites -> wire_descriptor d label -> d <> DUlong 0 ->
  ~ labels (composite_D K) d -> decode (s_dec (composite_S K)) md (0x00 :: label ++ rest) = Err (EInvalidDescriptor d).
Proof.
  intros HK W N L. rewrite (composite_dec_eq K HK), decode_cons. unfold composite_dec. change (validate_code 0x00 FC_DESCRIBED) with (@Ok unit tt).
  cbn [bind]. etransitivity; [apply (bind_eq _ _ _ (descriptor_accepts md d label N W rest))|]. cbn beta iota.
  change ((if matches (k_code K) (k_name K) d then k_inner K md rest else Err (EInvalidDescriptor d)) = Err (EInvalidDescriptor d)).
  destruct (matches (k_code K) (k_name K) d) eqn:M; [|reflexivity]. apply (matches_labels (composite_D K)) in M. contradiction.
Qed.
