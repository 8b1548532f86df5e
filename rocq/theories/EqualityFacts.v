(** Equality and hashing of values. *)

From Verif Require Import Decode BaseFacts Utf8Spec Valid Wire DecLaws EncLaws TypeSpec CodecSpec EqFacts Hash EqualitySpec.
From Verif Require Import CodecFacts MapFacts.
From Coq Require Import ZifyBool.
Open Scope Z_scope.

(** ** Floats *)
Definition magnitude (e m mag : Z) : Z :=
  let exponent := mag / 2 ^ m in
  if exponent =? 0 then 2 * (mag mod 2 ^ m) else (2 ^ m + mag mod 2 ^ m) * 2 ^ exponent.
Lemma magnitude_lt e m a b : 0 < m -> 0 <= a < b -> magnitude e m a < magnitude e m b.
Proof.
  intros Hm [Ha Hab]. unfold magnitude. pose proof (Z.pow_pos_nonneg 2 m ltac:(lia) ltac:(lia)) as P. set (M := 2 ^ m) in *.
  pose proof (Z.div_mod a M ltac:(lia)) as Da. pose proof (Z.mod_pos_bound a M P) as Ra.
  pose proof (Z.div_mod b M ltac:(lia)) as Db. pose proof (Z.mod_pos_bound b M P) as Rb.
  assert (0 <= a / M) as Qa by (apply Z.div_pos; lia).
  assert (a / M <= b / M) as Q by (apply Z.div_le_mono; lia).
  remember (a / M) as qa. remember (b / M) as qb. remember (a mod M) as ra. remember (b mod M) as rb.
  clear Heqqa Heqqb Heqra Heqrb.
  destruct (Z.eq_dec qa qb) as [->|Hne].
  - assert (ra < rb) by nia. destruct (Z.eqb_spec qb 0); [lia|]. pose proof (Z.pow_pos_nonneg 2 qb ltac:(lia) ltac:(lia)). nia.
  - destruct (Z.eqb_spec qb 0); [lia|].
    pose proof (Z.pow_pos_nonneg 2 qb ltac:(lia) ltac:(lia)) as Pb. destruct (Z.eqb_spec qa 0) as [->|Hqa].
    + pose proof (Z.pow_le_mono_r 2 1 qb ltac:(lia) ltac:(lia)) as L. change (2 ^ 1) with 2 in L. nia.
    + pose proof (Z.pow_le_mono_r 2 (qa + 1) qb ltac:(lia) ltac:(lia)) as L. rewrite Z.pow_add_r in L by lia. change (2 ^ 1) with 2 in L.
      pose proof (Z.pow_pos_nonneg 2 qa ltac:(lia) ltac:(lia)). nia.
Qed.
Lemma magnitude_inj e m a b : 0 < m -> 0 <= a -> 0 <= b -> magnitude e m a = magnitude e m b -> a = b.
Proof.
  intros Hm Ha Hb E. destruct (Z.lt_trichotomy a b) as [L|[L|L]]; [|exact L|].
  - pose proof (magnitude_lt e m a b Hm ltac:(lia)). lia.
  - pose proof (magnitude_lt e m b a Hm ltac:(lia)). lia.
Qed.
Lemma magnitude_0 e m : 0 < m -> magnitude e m 0 = 0.
Proof. intros. unfold magnitude. now rewrite Z.div_0_l, Z.mod_0_l by (apply Z.pow_nonzero; lia). Qed.
Lemma magnitude_pos e m a : 0 < m -> 0 < a -> 0 < magnitude e m a.
Proof. intros. rewrite <- (magnitude_0 e m) by easy. now apply magnitude_lt. Qed.

Definition fnan (e m b : Z) : bool := (2 ^ e - 1) * 2 ^ m <? b mod 2 ^ (e + m).
Definition feqb (e m a b : Z) : bool :=
  if fnan e m a then fnan e m b
  else if fnan e m b then false
  else (a =? b) || ((a mod 2 ^ (e + m) =? 0) && (b mod 2 ^ (e + m) =? 0)).

Section Float.
  Context (e m : Z) (He : 1 < e) (Hm : 0 < m).
  Let W := 2 ^ (e + m).
  Lemma W_pos : 0 < W. Proof. apply Z.pow_pos_nonneg; lia. Qed.
  (** The value by sign and magnitude. *)
  Definition float_parts (s : bool) (mag : Z) : float_value :=
    if (2 ^ e - 1) * 2 ^ m <? mag then FNan
    else if mag =? (2 ^ e - 1) * 2 ^ m then FInf s
    else FNum (if s then - magnitude e m mag else magnitude e m mag).
  Lemma float_of_parts bits : 0 <= bits < 2 * W -> float_of e m bits = float_parts (W <=? bits) (bits mod W).
  Proof.
    intros Hb. pose proof W_pos as HW. unfold float_of, float_parts. fold W.
    assert (W = 2 ^ e * 2 ^ m) as EW by (unfold W; rewrite Z.pow_add_r by lia; reflexivity).
    pose proof (Z.pow_pos_nonneg 2 m ltac:(lia) ltac:(lia)) as PM. pose proof (Z.pow_pos_nonneg 2 e ltac:(lia) ltac:(lia)) as PE.
    assert ((bits / W) mod 2 =? 1 = (W <=? bits)) as ->.
    { destruct (Z.leb_spec W bits).
      - replace (bits / W) with 1; [reflexivity|]. apply (Z.div_unique_pos _ _ 1 (bits - W)); lia.
      - rewrite Z.div_small by lia. reflexivity. }
    assert (bits mod 2 ^ m = (bits mod W) mod 2 ^ m) as ->.
    { rewrite EW, (Z.mul_comm (2 ^ e)), Z.rem_mul_r by lia. rewrite (Z.mul_comm (2 ^ m) (_ mod _)), Z.mod_add by lia. now rewrite Z.mod_mod by lia. }
    assert (bits / 2 ^ m mod 2 ^ e = (bits mod W) / 2 ^ m) as ->.
    { rewrite EW, (Z.mul_comm (2 ^ e)), Z.rem_mul_r by lia. rewrite (Z.mul_comm (2 ^ m) (_ mod _)), Z.div_add by lia.
      rewrite (Z.div_small (bits mod 2 ^ m)) by (apply Z.mod_pos_bound; lia). lia. }
    pose proof (Z.mod_pos_bound bits W HW) as RB. remember (bits mod W) as mag eqn:Emag. clear Emag.
    unfold magnitude. pose proof (Z.div_mod mag (2 ^ m) ltac:(lia)) as D. pose proof (Z.mod_pos_bound mag (2 ^ m) PM) as R.
    assert (mag / 2 ^ m <= 2 ^ e - 1) as Q.
    { assert (mag / 2 ^ m < 2 ^ e); [|lia]. apply Z.div_lt_upper_bound; lia. }
    remember (mag / 2 ^ m) as q. remember (mag mod 2 ^ m) as r. clear Heqq Heqr. remember (2 ^ m) as M. remember (2 ^ e) as E.
    destruct (Z.eqb_spec q (E - 1)) as [->|Hq].
    - destruct (Z.eqb_spec r 0) as [->|Hr].
      + replace ((E - 1) * M <? mag) with false by (symmetry; apply Z.ltb_ge; nia).
        now replace (mag =? (E - 1) * M) with true by (symmetry; apply Z.eqb_eq; nia).
      + now replace ((E - 1) * M <? mag) with true by (symmetry; apply Z.ltb_lt; nia).
    - replace ((E - 1) * M <? mag) with false by (symmetry; apply Z.ltb_ge; nia).
      now replace (mag =? (E - 1) * M) with false by (symmetry; apply Z.eqb_neq; nia).
  Qed.
  Lemma feqb_spec a b : 0 <= a < 2 * W -> 0 <= b < 2 * W -> (feqb e m a b = true <-> float_of e m a = float_of e m b).
  Proof.
    intros Ha Hb. rewrite !float_of_parts by easy. unfold feqb, fnan, float_parts. fold W. pose proof W_pos as HW.
    pose proof (Z.mod_pos_bound a W HW) as RA. pose proof (Z.mod_pos_bound b W HW) as RB.
    assert (a mod W = if W <=? a then a - W else a) as EA.
    { destruct (Z.leb_spec W a); [|apply Z.mod_small; lia]. symmetry. apply (Z.mod_unique_pos _ _ 1); lia. }
    assert (b mod W = if W <=? b then b - W else b) as EB.
    { destruct (Z.leb_spec W b); [|apply Z.mod_small; lia]. symmetry. apply (Z.mod_unique_pos _ _ 1); lia. }
    remember (a mod W) as x. remember (b mod W) as y. clear Heqx Heqy.
    set (L := (2 ^ e - 1) * 2 ^ m).
    assert (0 < L). { unfold L. pose proof (Z.pow_pos_nonneg 2 m ltac:(lia) ltac:(lia)). pose proof (Z.pow_le_mono_r 2 1 e ltac:(lia) ltac:(lia)) as Q. change (2 ^ 1) with 2 in Q. nia. }
    destruct (Z.ltb_spec L x) as [Lx|Lx]; destruct (Z.ltb_spec L y) as [Ly|Ly].
    - easy.
    - split; [easy|]. destruct (y =? L); discriminate.
    - split; [easy|]. destruct (x =? L); discriminate.
    - rewrite orb_true_iff, andb_true_iff, !Z.eqb_eq.
      destruct (Z.eqb_spec x L) as [Ex|Ex]; destruct (Z.eqb_spec y L) as [Ey|Ey].
      + destruct (Z.leb_spec W a); destruct (Z.leb_spec W b); split; try discriminate; try lia; try (intros; reflexivity).
      + split; [intros [->|[? ?]]; [exfalso; congruence|lia]|discriminate].
      + split; [intros [->|[? ?]]; [exfalso; congruence|lia]|discriminate].
      + split.
        * intros [->|[-> ->]].
          { replace x with y by congruence. reflexivity. }
          { rewrite magnitude_0 by easy. now destruct (W <=? a), (W <=? b). }
        * intros [= E].
          destruct (Z.eq_dec x 0) as [->|Nx]; destruct (Z.eq_dec y 0) as [->|Ny]; [right; easy| | |].
          { rewrite magnitude_0 in E by easy. pose proof (magnitude_pos e m y Hm ltac:(lia)). destruct (W <=? a), (W <=? b); lia. }
          { rewrite magnitude_0 in E by easy. pose proof (magnitude_pos e m x Hm ltac:(lia)). destruct (W <=? a), (W <=? b); lia. }
          { left. pose proof (magnitude_pos e m x Hm ltac:(lia)). pose proof (magnitude_pos e m y Hm ltac:(lia)).
            destruct (Z.leb_spec W a); destruct (Z.leb_spec W b); try lia.
            - assert (x = y) by (apply (magnitude_inj e m); lia). lia.
            - assert (x = y) by (apply (magnitude_inj e m); lia). lia. }
  Qed.
End Float.
Lemma f32_eqb_same a b : 0 <= a < 2 ^ 32 -> 0 <= b < 2 ^ 32 -> (f32_eqb a b = true <-> binary32 a = binary32 b).
Proof. intros. apply (feqb_spec 8 23 ltac:(lia) ltac:(lia)); assumption. Qed.
Lemma f64_eqb_same a b : 0 <= a < 2 ^ 64 -> 0 <= b < 2 ^ 64 -> (f64_eqb a b = true <-> binary64 a = binary64 b).
Proof. intros. apply (feqb_spec 11 52 ltac:(lia) ltac:(lia)); assumption. Qed.

(** ** Values *)
Lemma descriptor_eqb_same d e : descriptor_eqb d e = true <-> same_descriptor d e.
Proof.
  split.
  - destruct d, e; cbn [descriptor_eqb]; try discriminate; intros E.
    + apply Z.eqb_eq in E. subst. constructor.
    + apply str_eqb_spec in E. now constructor.
  - intros [v|s t E]; cbn [descriptor_eqb]; [apply Z.eqb_refl|now apply str_eqb_spec].
Qed.
Theorem variant_eqb_same a : variant_ok a -> forall b, variant_ok b -> (variant_eqb a b = true <-> same_value a b).
Proof.
  induction a using variant_ind'; intros Ha c Hc.
  all: destruct c; try (split; [discriminate|inversion 1]); cbn [variant_ok] in Ha, Hc.
  all: try (cbn [variant_eqb]; rewrite ?Z.eqb_eq, ?bytes_eqb_eq, ?datetime_eqb_eq, ?Bool.eqb_true_iff; split; [intros ->; constructor|inversion 1; reflexivity]; fail).
  all: try (cbn [variant_eqb]; rewrite str_eqb_spec; split; [intros; now constructor|inversion 1; subst; assumption]; fail).
  - split; [constructor|reflexivity].
  - cbn [variant_eqb]. rewrite f32_eqb_same by assumption. split; [now constructor|inversion 1; subst; assumption].
  - cbn [variant_eqb]. rewrite f64_eqb_same by assumption. split; [now constructor|inversion 1; subst; assumption].
  - rewrite variant_eqb_list. apply all_prop_Forall in Ha, Hc.
    assert (list_eqb l l0 = true <-> Forall2 same_value l l0) as E.
    { revert l0 Hc. induction l as [|x l IH]; intros [|y k] Hc; cbn [list_eqb]; try (split; [discriminate|inversion 1]).
      - split; [constructor|reflexivity].
      - inversion H; inversion Ha; inversion Hc; subst. rewrite andb_true_iff, IH, H2 by assumption.
        split; [intros []; now constructor|inversion 1; subst; now split]. }
    rewrite E. split; [now constructor|inversion 1; subst; assumption].
  - destruct (variant_ok_map _ Ha) as (HF & HK & HD). destruct (variant_ok_map _ Hc) as (HF2 & HK2 & HD2).
    rewrite variant_eqb_map. pose proof (distinct_nodup _ HK2 HD2) as HN2. pose proof HK as HK'. pose proof HK2 as HK2'.
    unfold keys_ok in HK', HK2'. rewrite Forall_forall in H, HF, HF2, HK', HK2'.
    rewrite andb_true_iff, Z.eqb_eq, forallb_forall. unfold zlen. split.
    + intros [E1 E2]. constructor; [lia|]. intros k v Hin. specialize (E2 _ Hin). unfold found in E2. cbn [fst snd] in E2.
      destruct (hm_get variant_eqb k m0) as [v'|] eqn:G; [|discriminate]. apply hm_get_in in G as (k' & Hin' & Ek).
      exists k', v'. split; [exact Hin'|].
      split; [apply (proj1 (H _ Hin)); [apply (HF _ Hin)|apply (HF2 _ Hin')|exact Ek]|apply (proj2 (H _ Hin)); [apply (HF _ Hin)|apply (HF2 _ Hin')|exact E2]].
    + inversion 1 as [| | | | | | | | | | | | | | | | | | | |l1 m1 EL EM|]; subst. split; [lia|]. intros [k v] Hin.
      destruct (EM _ _ Hin) as (k' & v' & Hin' & Sk & Sv). unfold found. cbn [fst snd].
      apply (proj1 (H _ Hin)) in Sk; [|apply (HF _ Hin)|apply (HF2 _ Hin')].
      apply (proj2 (H _ Hin)) in Sv; [|apply (HF _ Hin)|apply (HF2 _ Hin')]. cbn [fst snd] in Sk, Sv.
      rewrite (hm_get_congr k k' m0), (hm_get_of_in m0 k' v'); try assumption; [apply (HK' _ Hin)|apply (HK2' _ Hin')|].
      apply (eqb_norm k k'); [apply (HK' _ Hin)|apply (HK2' _ Hin')|exact Sk].
  - cbn [variant_eqb]. destruct Ha as [_ Ha], Hc as [_ Hc]. rewrite andb_true_iff, descriptor_eqb_same, IHa by assumption.
    split; [intros []; now constructor|inversion 1; subst; now split].
Qed.

(** ** Lookup *)
Lemma lookup_same m k v : variant_ok (VMap m) -> variant_ok k -> variant_hashable k = true ->
  (hm_get variant_eqb k m = Some v <-> exists k', In (k', v) m /\ same_value k k').
Proof.
  intros Hm Hk Hh. destruct (variant_ok_map _ Hm) as (HF & HK & HD). rewrite Forall_forall in HF. split.
  - intros G. apply hm_get_in in G as (k' & Hin & E). exists k'. split; [exact Hin|]. apply variant_eqb_same; [exact Hk|apply (HF _ Hin)|exact E].
  - intros (k' & Hin & S). apply variant_eqb_same in S; [|exact Hk|apply (HF _ Hin)].
    pose proof HK as HK'. unfold keys_ok in HK'. rewrite Forall_forall in HK'. specialize (HK' _ Hin). cbn [fst] in HK'.
    rewrite (hm_get_congr k k' m Hh HK'), (hm_get_of_in m k' v HK (distinct_nodup _ HK HD) Hin); [reflexivity| |exact HK].
    now apply (eqb_norm k k').
Qed.

(** ** Hashing *)
Section EachHash.
  Context (H : hashers).
  Fixpoint each_hash (l : list variant) : res feed :=
    match l with
    | [] => Ok []
    | x :: r => f <- variant_hash H x ;; g <- each_hash r ;; Ok (f ++ g)
    end.
End EachHash.
Lemma variant_hash_list H l : variant_hash H (VList l) = (fs <- each_hash H l ;; Ok (discriminant 19 ++ HUsize (zlen l) :: fs)).
Proof. reflexivity. Qed.
Lemma str_hash_text H s : texts_hashed H -> str_hash H s = [HWrite (str_bytes s); HU8 0xff].
Proof. intros T. destruct s; cbn [str_hash str_bytes]; [apply T|reflexivity]. Qed.
Lemma str_hash_same H s t : texts_hashed H -> str_eqb s t = true -> str_hash H s = str_hash H t.
Proof. intros T E. apply str_eqb_spec in E. rewrite !str_hash_text by assumption. now rewrite E. Qed.
Lemma descriptor_hash_same H d e : texts_hashed H -> descriptor_eqb d e = true -> descriptor_hash H d = descriptor_hash H e.
Proof.
  intros T E. apply descriptor_eqb_same in E. destruct E as [v|s t E]; [reflexivity|]. cbn [descriptor_hash symbol_hash]. unfold symbol_hash.
  f_equal. apply str_hash_same; [exact T|now apply str_eqb_spec].
Qed.
Theorem variant_hash_same H a : floats_hashed H -> texts_hashed H -> variant_ok a -> forall b, variant_ok b -> variant_eqb a b = true ->
  variant_hash H a = variant_hash H b.
Proof.
  intros (F32 & F64) T. induction a using variant_ind'; intros Ha c Hc E.
  all: destruct c; try discriminate; cbn [variant_ok] in Ha, Hc.
  all: try (cbn [variant_eqb] in E; rewrite ?Z.eqb_eq, ?bytes_eqb_eq, ?datetime_eqb_eq, ?Bool.eqb_true_iff in E; subst; reflexivity).
  - cbn [variant_eqb variant_hash] in *. apply f32_eqb_same in E; [|assumption..]. now rewrite (F32 _ _ Ha Hc E).
  - cbn [variant_eqb variant_hash] in *. apply f64_eqb_same in E; [|assumption..]. now rewrite (F64 _ _ Ha Hc E).
  - cbn [variant_eqb variant_hash] in *. now rewrite (str_hash_same H _ _ T E).
  - cbn [variant_eqb variant_hash] in *. unfold symbol_hash. now rewrite (str_hash_same H _ _ T E).
  - rewrite variant_eqb_list in E. rewrite !variant_hash_list. apply all_prop_Forall in Ha, Hc.
    enough (each_hash H l = each_hash H l0 /\ zlen l = zlen l0) as [-> ->] by reflexivity.
    revert l0 Hc E. induction l as [|x l IH]; intros [|y k] Hc E; try discriminate; [now split|]. cbn [list_eqb each_hash] in *.
    inversion H0; inversion Ha; inversion Hc; subst. apply andb_true_iff in E as [E1 E2].
    destruct (IH ltac:(assumption) ltac:(assumption) k ltac:(assumption) E2) as [-> EL]. rewrite (H3 ltac:(assumption) y) by assumption.
    split; [reflexivity|]. rewrite !zlen_cons. lia.
  - cbn [variant_eqb variant_hash] in *. destruct Ha as [_ Ha], Hc as [_ Hc]. apply andb_true_iff in E as [E1 E2].
    rewrite (IHa Ha c) by assumption. now rewrite (descriptor_hash_same H d d0 T E1).
Qed.
Lemma str_hash_tells H s t r q : texts_hashed H -> str_hash H s ++ r = str_hash H t ++ q -> str_bytes s = str_bytes t /\ r = q.
Proof. intros T E. rewrite !str_hash_text in E by assumption. injection E as E1 E2. now split. Qed.
Lemma descriptor_hash_tells H d e r q : texts_hashed H -> descriptor_hash H d ++ r = descriptor_hash H e ++ q -> same_descriptor d e /\ r = q.
Proof.
  intros T E. destruct d as [v|s], e as [w|t]; cbn [descriptor_hash discriminant app] in E; try discriminate E.
  - injection E as -> ->. split; [constructor|reflexivity].
  - injection E as E. apply (str_hash_tells H) in E as [E1 E2]; [|exact T]. split; [now constructor|exact E2].
Qed.
Theorem variant_hash_tells H a : externals_told H -> texts_hashed H -> variant_ok a -> forall b, variant_ok b -> forall f g r q,
  variant_hash H a = Ok f -> variant_hash H b = Ok g -> f ++ r = g ++ q -> same_value a b /\ r = q.
Proof.
  intros (F32 & F64 & DT) T. induction a using variant_ind'; intros Ha c Hc f g r q Ef Eg E.
  all: destruct c; cbn [variant_ok] in Ha, Hc.
  all: try (cbn [variant_hash discriminant slice_hash static_symbol_hash text_hash app] in Ef, Eg; injection Ef as <-; injection Eg as <-; cbn [app] in E;
    first [discriminate E | injection E as; subst; split; [constructor|reflexivity]]).
  all: try (discriminate Ef || discriminate Eg).
  all: try (cbn [variant_hash] in Ef, Eg; rewrite ?variant_hash_list in *;
    repeat match goal with X : bind ?e _ = Ok _ |- _ => destruct e; try discriminate X; cbn [bind] in X end;
    injection Ef as <-; injection Eg as <-; discriminate E).
  - cbn [variant_hash discriminant app] in *. injection Ef as <-. injection Eg as <-. cbn [app] in E. injection E as E ->.
    destruct b, b0; try discriminate E; split; constructor.
  - cbn [variant_hash discriminant app] in *. injection Ef as <-. injection Eg as <-. cbn [app] in E. injection E as E. apply F32 in E as [E1 E2]; [|assumption..].
    split; [now constructor|exact E2].
  - cbn [variant_hash discriminant app] in *. injection Ef as <-. injection Eg as <-. cbn [app] in E. injection E as E. apply F64 in E as [E1 E2]; [|assumption..].
    split; [now constructor|exact E2].
  - cbn [variant_hash discriminant app] in *. injection Ef as <-. injection Eg as <-. cbn [app] in E. injection E as E. apply DT in E as [-> E2].
    split; [constructor|exact E2].
  - cbn [variant_hash discriminant app] in *. injection Ef as <-. injection Eg as <-. cbn [app] in E. injection E as E. apply (str_hash_tells H) in E as [E1 E2]; [|assumption].
    split; [now constructor|exact E2].
  - cbn [variant_hash discriminant app] in *. injection Ef as <-. injection Eg as <-. cbn [app] in E. injection E as E. apply (str_hash_tells H) in E as [E1 E2]; [|assumption].
    split; [now constructor|exact E2].
  - rewrite variant_hash_list in Ef, Eg. destruct (each_hash H l) as [x| | |] eqn:Ex; try discriminate Ef. destruct (each_hash H l0) as [y| | |] eqn:Ey; try discriminate Eg.
    cbn [bind discriminant app] in Ef, Eg. injection Ef as <-. injection Eg as <-. cbn [app] in E. injection E as EL E. apply all_prop_Forall in Ha, Hc.
    enough (Forall2 same_value l l0 /\ r = q) as [X Y] by (split; [now constructor|exact Y]).
    revert l0 x y EL Hc Ex Ey E. induction l as [|v l IH]; intros [|w k] x y EL Hc Ex Ey E.
    + injection Ex as <-. injection Ey as <-. split; [constructor|exact E].
    + rewrite zlen_cons in EL. pose proof (zlen_nonneg k). change (zlen (@nil variant)) with 0 in EL. lia.
    + rewrite zlen_cons in EL. pose proof (zlen_nonneg l). change (zlen (@nil variant)) with 0 in EL. lia.
    + cbn [each_hash] in Ex, Ey. inversion H0 as [|? ? P1 P2]; inversion Ha as [|? ? Q1 Q2]; inversion Hc as [|? ? R1 R2]; subst.
      destruct (variant_hash H v) as [v1| | |] eqn:Ev; try discriminate Ex. destruct (variant_hash H w) as [w1| | |] eqn:Ew; try discriminate Ey. cbn [bind] in Ex, Ey.
      destruct (each_hash H l) as [l1| | |] eqn:El; try discriminate Ex. destruct (each_hash H k) as [k1| | |] eqn:Ek; try discriminate Ey. cbn [bind] in Ex, Ey.
      injection Ex as <-. injection Ey as <-. rewrite <- !app_assoc in E. destruct (P1 Q1 w R1 _ _ _ _ eq_refl Ew E) as [S1 E1].
      rewrite !zlen_cons in EL. destruct (IH P2 Q2 k l1 k1 ltac:(lia) R2 eq_refl Ek E1) as [S2 E2]. split; [now constructor|exact E2].
  - cbn [variant_hash] in Ef, Eg. destruct Ha as [_ Ha], Hc as [_ Hc].
    destruct (variant_hash H a) as [a1| | |] eqn:Ev; try discriminate Ef. destruct (variant_hash H c) as [c1| | |] eqn:Ew; try discriminate Eg. cbn [bind discriminant app] in Ef, Eg.
    injection Ef as <-. injection Eg as <-. cbn [app] in E. injection E as E. rewrite <- !app_assoc in E. apply descriptor_hash_tells in E as [E1 E2]; [|exact T].
    destruct (IHa Ha c Hc _ _ _ _ eq_refl Ew E2) as [S2 E3]. split; [now constructor|exact E3].
Qed.
Lemma meets_map_hashable v : meets_map v <-> variant_hashable v = false.
Proof.
  split.
  - induction 1 as [m|l x Hin _ IH|d v _ IH]; cbn [variant_hashable]; [reflexivity| |exact IH].
    destruct (forallb variant_hashable l) eqn:E; [|reflexivity]. rewrite forallb_forall in E. now rewrite (E _ Hin) in IH.
  - induction v using variant_ind'; cbn [variant_hashable]; try discriminate.
    + intros E. induction l as [|x l IH]; [discriminate|]. cbn [forallb] in E. inversion H; subst. apply andb_false_iff in E as [E|E].
      * apply (MM_list _ x); [now left|]. now apply H2.
      * specialize (IH H3 E). inversion IH as [|? y Hin Hy|]; subst. apply (MM_list _ y); [now right|exact Hy].
    + intros _. constructor.
    + intros E. constructor. now apply IHv.
Qed.
Theorem variant_hash_result H v :
  if variant_hashable v then exists f, variant_hash H v = Ok f else variant_hash H v = Panic PUnimplemented.
Proof.
  induction v using variant_ind'; try (eexists; reflexivity); try reflexivity.
  - rewrite variant_hash_list. cbn [variant_hashable].
    enough (if forallb variant_hashable l then exists f, each_hash H l = Ok f else each_hash H l = Panic PUnimplemented) as E.
    { destruct (forallb variant_hashable l); [destruct E as [f ->]; eexists; reflexivity|rewrite E; reflexivity]. }
    induction l as [|x l IH]; [eexists; reflexivity|]. inversion H0; subst. cbn [forallb each_hash].
    destruct (variant_hashable x).
    + destruct H3 as [f ->]. cbn [andb bind]. specialize (IH H4). destruct (forallb variant_hashable l).
      * destruct IH as [g ->]. eexists. reflexivity.
      * rewrite IH. reflexivity.
    + rewrite H3. reflexivity.
  - cbn [variant_hashable variant_hash]. destruct (variant_hashable v).
    + destruct IHv as [f ->]. eexists. reflexivity.
    + rewrite IHv. reflexivity.
Qed.
Theorem variant_hash_iff H a b : floats_hashed H -> externals_told H -> texts_hashed H -> variant_ok a -> variant_ok b -> ~ meets_map a ->
  (variant_hash H a = variant_hash H b <-> variant_eqb a b = true).
Proof.
  intros F X T Ha Hb M. split.
  - intros E. rewrite variant_eqb_same by assumption. pose proof (variant_hash_result H a) as R. destruct (variant_hashable a) eqn:V; [|now apply meets_map_hashable in V].
    destruct R as [f R]. rewrite R in E. destruct (variant_hash_tells H a X T Ha b Hb f f [] [] R (eq_sym E) eq_refl) as [S _]. exact S.
  - now apply variant_hash_same.
Qed.
Lemma variant_hash_panics H v : (meets_map v -> variant_hash H v = Panic PUnimplemented) /\ (~ meets_map v -> exists f, variant_hash H v = Ok f).
Proof.
  pose proof (variant_hash_result H v) as R. rewrite meets_map_hashable. destruct (variant_hashable v); split; intros ?; try congruence.
Qed.
Lemma hash_storage H b : h_bytestr H b <> [HWrite b; HU8 0xff] ->
  str_eqb (SByteStr b) (SStatic b) = true /\ str_hash H (SByteStr b) <> str_hash H (SStatic b).
Proof. intros N. split; [now apply str_eqb_spec|exact N]. Qed.
Lemma as_str_spec v t : variant_as_str v = Some t <-> exists s, (v = VString s \/ v = VSymbol s) /\ str_bytes s = t.
Proof.
  split.
  - destruct v; try discriminate; intros [= <-]; eexists; split; [left; reflexivity|reflexivity|right; reflexivity|reflexivity].
  - intros (s & [->| ->] & <-); reflexivity.
Qed.

Lemma insert_ok m k v : variant_ok (VMap m) -> variant_ok k -> variant_hashable k = true -> variant_ok v -> variant_ok (VMap (hm_insert variant_eqb k v m)).
Proof.
  cbn [variant_ok]. intros [H D] Hk Hh Hv. split.
  - apply (all_prop_pair _ _ (fun k w => variant_ok k /\ variant_hashable k = true /\ variant_ok w)) in H; [|easy].
    apply (all_prop_pair _ _ (fun k w => variant_ok k /\ variant_hashable k = true /\ variant_ok w)); [easy|].
    clear D. induction m as [|[k' v'] m IH]; cbn [hm_insert]; [repeat constructor; auto|]. inversion H; subst.
    destruct (variant_eqb k k'); constructor; cbn [fst snd] in *; auto. intuition.
  - now apply hm_insert_distinct.
Qed.
Lemma lookup_insert m k v q : variant_ok (VMap m) -> variant_hashable k = true -> variant_hashable q = true ->
  hm_get variant_eqb q (hm_insert variant_eqb k v m) = if variant_eqb q k then Some v else hm_get variant_eqb q m.
Proof.
  intros Hm Hk Hq. destruct (variant_ok_map _ Hm) as (_ & HK & _).
  apply (MapFacts.hm_get_insert variant_key variant_key_equivalence); assumption.
Qed.
