(** Equality of protocol values: it is sameness, an equivalence, and respects the encoding. *)

From Coq Require Import String Permutation.
From Verif Require Import Equal Io BaseFacts EncLaws Utf8Spec Valid Wire TypeSpec TypeFacts CompositeSpec CompositeFacts AllTypes AllTypesFacts
  CodecSpec EqFacts CodecFacts MapFacts RelayFacts EqualitySpec EqualityFacts MessageSpec MessageFacts FrameSpec EqualSpec.
Open Scope list_scope.
Open Scope Z_scope.

(** What is shown of each type. *)
Record agrees {T} (valid : T -> Prop) (size : T -> Z) (canon : T -> T) (decodable : T -> Prop) (Q : equality T) : Prop := MkAgrees {
  ag_same : forall a b, valid a -> valid b -> (q_eqb Q a b = true <-> q_same Q a b);
  ag_refl : forall a, valid a -> q_eqb Q a a = true;
  ag_sym : forall a b, valid a -> valid b -> q_eqb Q a b = true -> q_eqb Q b a = true;
  ag_trans : forall a b c, valid a -> valid b -> valid c -> q_eqb Q a b = true -> q_eqb Q b c = true -> q_eqb Q a c = true;
  ag_size : forall a b, valid a -> valid b -> q_eqb Q a b = true -> size a = size b;
  ag_lossless : forall a, valid a -> decodable (canon a) -> (q_eqb Q a (canon a) = true <-> q_lossless Q a);
  ag_canon : forall a b, valid a -> valid b -> decodable (canon a) -> decodable (canon b) -> q_eqb Q a b = true ->
    q_eqb Q (canon a) (canon b) = true;
  ag_lossless_eq : forall a b, q_eqb Q a b = true -> q_lossless Q b -> q_lossless Q a;
  ag_canon_lossless : forall a, q_lossless Q (canon a)
}.
Definition agrees_S {T} (S : tspec T) : equality T -> Prop := agrees (s_valid S) (s_size S) (s_canon S) (s_decodable S).
Definition agrees_D {T} (D : dspec T) : equality T -> Prop := agrees (d_valid D) (e_size (d_E D)) (d_canon D) (d_decodable D).

(** ** Parts *)
Lemma plain_agrees {T} (valid : T -> Prop) size decodable eqb : (forall a b, eqb a b = true <-> a = b) ->
  agrees valid size same decodable (plain_Q eqb).
Proof.
  intros H. constructor; cbn [q_eqb q_same q_lossless plain_Q]; unfold same, always; intros; try rewrite !H in *; subst; try easy.
Qed.
Lemma text_agrees valid size decodable : (forall s t, str_bytes s = str_bytes t -> size s = size t) ->
  agrees valid size canon_str decodable text_Q.
Proof.
  intros H. constructor; cbn [q_eqb q_same q_lossless text_Q]; unfold always; intros; try easy.
  - apply str_eqb_spec.
  - apply str_eqb_refl.
  - now rewrite str_eqb_sym.
  - eapply str_eqb_trans; eassumption.
  - apply H. now apply str_eqb_spec.
  - split; [easy|]. intros _. apply str_eqb_spec. now destruct a.
  - apply str_eqb_spec. apply str_eqb_spec in H4. now destruct a, b.
Qed.
Lemma datetime_agrees : agrees_S datetime_S datetime_Q.
Proof.
  constructor; cbn [q_eqb q_same q_lossless datetime_Q s_valid s_size s_canon s_decodable datetime_S]; intros;
    repeat match goal with H : datetime_eqb _ _ = true |- _ => apply datetime_eqb_eq in H; subst end; try easy;
    try (now apply datetime_eqb_eq).
  - rewrite datetime_eqb_eq. split; [|intros []; symmetry; now apply instant_millis].
    intros E. rewrite E. unfold instant. cbn [dt_nanos]. generalize (millis a). intros z. lia.
  - unfold instant. cbn [dt_nanos]. generalize (millis a). intros z. lia.
Qed.

Lemma option_agrees {T} valid size size' canon decodable (Q : equality T) : agrees valid size canon decodable Q ->
  (forall x, size' (Some x) = size x) -> agrees (opt_prop valid) size' (option_map canon) (opt_prop decodable) (option_Q Q).
Proof.
  intros [Hsame Hrefl Hsym Htrans Hsize Hll Hcanon Hleq Hcl] HS.
  constructor; cbn [q_eqb q_same q_lossless option_Q].
  - intros [a|] [b|]; cbn [opt_prop opt_eqb opt_rel]; intros; try easy. now apply Hsame.
  - intros [a|]; cbn [opt_prop opt_eqb]; auto.
  - intros [a|] [b|]; cbn [opt_prop opt_eqb]; auto.
  - intros [a|] [b|] [c|]; cbn [opt_prop opt_eqb]; try easy. eauto.
  - intros [a|] [b|]; cbn [opt_prop opt_eqb]; try easy. rewrite !HS. auto.
  - intros [a|]; cbn [opt_prop opt_eqb option_map]; [auto|easy].
  - intros [a|] [b|]; cbn [opt_prop opt_eqb option_map]; auto.
  - intros [a|] [b|]; cbn [opt_prop opt_eqb]; try easy. eauto.
  - intros [a|]; cbn [opt_prop option_map]; auto.
Qed.

Lemma vec_eqb_Forall2 {T} (eqb : T -> T -> bool) l m : vec_eqb eqb l m = true <-> Forall2 (fun a b => eqb a b = true) l m.
Proof.
  revert m. induction l as [|x l IH]; intros [|y m]; cbn [vec_eqb]; split; try easy; try (now inversion 1).
  - intros E. apply andb_true_iff in E as [E1 E2]. constructor; [exact E1|]. now apply IH.
  - inversion 1; subst. apply andb_true_iff. split; [assumption|]. now apply IH.
Qed.
Lemma vec_agrees {T} valid size size' canon decodable (Q : equality T) : agrees valid size canon decodable Q ->
  (forall l m, Forall2 (fun a b => valid a /\ valid b /\ q_eqb Q a b = true) l m -> size' l = size' m) ->
  agrees (Forall valid) size' (map canon) (Forall decodable) (vec_Q Q).
Proof.
  intros [Hsame Hrefl Hsym Htrans Hsize Hll Hcanon Hleq Hcl] HS.
  constructor; cbn [q_eqb q_same q_lossless vec_Q].
  - induction a as [|x a IH]; intros [|y b] Ha Hb; cbn [vec_eqb]; split; try easy; try (now inversion 1);
      inversion Ha; inversion Hb; subst.
    + intros E. apply andb_true_iff in E as [E1 E2]. constructor; [now apply Hsame|]. now apply IH.
    + inversion 1; subst. apply andb_true_iff. split; [now apply Hsame|]. now apply IH.
  - induction 1; cbn [vec_eqb]; [reflexivity|]. rewrite Hrefl by assumption. assumption.
  - induction a as [|x a IH]; intros [|y b] Ha Hb; cbn [vec_eqb]; try easy. inversion Ha; inversion Hb; subst.
    intros E. apply andb_true_iff in E as [E1 E2]. rewrite Hsym by assumption. now apply IH.
  - induction a as [|x a IH]; intros [|y b] [|z c] Ha Hb Hc; cbn [vec_eqb]; try easy. inversion Ha; inversion Hb; inversion Hc; subst.
    intros E F. apply andb_true_iff in E as [E1 E2]. apply andb_true_iff in F as [F1 F2]. rewrite (Htrans x y z) by assumption. now apply (IH b).
  - intros a b Ha Hb E. apply HS. revert b Hb E. induction a as [|x a IH]; intros [|y b] Hb; cbn [vec_eqb]; try easy.
    inversion Ha; inversion Hb; subst. intros E. apply andb_true_iff in E as [E1 E2]. constructor; [easy|]. now apply IH.
  - induction a as [|x a IH]; cbn [map vec_eqb]; [easy|]. intros Ha Hd. inversion Ha; inversion Hd; subst.
    rewrite andb_true_iff, Forall_cons_iff, IH, Hll by assumption. easy.
  - induction a as [|x a IH]; intros [|y b] Ha Hb Da Db; cbn [vec_eqb map] in *; try easy. inversion Ha; inversion Hb; inversion Da; inversion Db; subst.
    intros E. apply andb_true_iff in E as [E1 E2]. rewrite Hcanon by assumption. now apply IH.
  - induction a as [|x a IH]; intros [|y b]; cbn [vec_eqb]; try easy. intros E Hl. apply andb_true_iff in E as [E1 E2]. inversion Hl; subst.
    constructor; eauto.
  - intros a. apply Forall_map. apply Forall_forall. auto.
Qed.

(** ** Hash maps *)
Section Maps.
  Context {K V : Type} (KO : key K) (KE : key_equivalence KO).
  Let hashable (m : list (K * V)) : Prop := Forall (fun kv => k_hashable KO (fst kv) = true) m.

  Lemma map_eqb_found (veqb : V -> V -> bool) l m : hashable l -> hashable m -> distinct_keys (k_eqb KO) m ->
    (map_eqb (k_eqb KO) veqb l m = true <->
     length l = length m /\ forall k v, In (k, v) l -> exists k' v', In (k', v') m /\ k_eqb KO k k' = true /\ veqb v v' = true).
  Proof.
    intros Hl Hm Hd. unfold map_eqb. rewrite andb_true_iff, Z.eqb_eq, forallb_forall. unfold zlen.
    unfold hashable in *. rewrite Forall_forall in Hl.
    split; intros [HL H]; (split; [lia|]).
    - intros k v Hin. specialize (H _ Hin). cbn [fst snd] in H. destruct (hm_get (k_eqb KO) k m) as [v'|] eqn:G; [|discriminate].
      apply (maps_to_get KO KE) in G; [|exact (Hl _ Hin)|exact Hm|exact Hd]. destruct G as (k' & Hin' & E). exists k', v'. auto.
    - intros [k v] Hin. cbn [fst snd]. destruct (H _ _ Hin) as (k' & v' & Hin' & E1 & E2).
      assert (G : hm_get (k_eqb KO) k m = Some v').
      { apply (maps_to_get KO KE); [exact (Hl _ Hin)|exact Hm|exact Hd|]. exists k'. auto. }
      now rewrite G.
  Qed.
  (** Entries that are found in the other map can be put in the order of this one. *)
  Lemma matching (R : V -> V -> Prop) : forall l m, hashable l -> hashable m -> distinct_keys (k_eqb KO) l -> length l = length m ->
    (forall k v, In (k, v) l -> exists k' v', In (k', v') m /\ k_eqb KO k k' = true /\ R v v') ->
    exists m', Permutation m m' /\ Forall2 (fun a b => k_eqb KO (fst a) (fst b) = true /\ R (snd a) (snd b)) l m'.
  Proof.
    induction l as [|[k v] l IH]; intros m Hl Hm Hd HL H.
    - destruct m; [|discriminate]. exists []. auto.
    - destruct (H k v) as (k' & v' & Hin & E & HR); [now left|]. apply in_split in Hin as (m1 & m2 & ->).
      inversion Hl; inversion Hd as [|? ? Hk Hd']; subst. cbn [fst snd] in *. unfold hashable in *. rewrite Forall_app in Hm. destruct Hm as [Hm1 Hm2].
      inversion Hm2; subst. cbn [fst] in *.
      destruct (IH (m1 ++ m2)) as (m' & HP & HF); auto.
      + apply Forall_app; auto.
      + rewrite app_length in *. cbn [length] in HL. lia.
      + intros k1 v1 Hin. destruct (H k1 v1) as (k2 & v2 & Hin2 & E2 & HR2); [now right|]. exists k2, v2.
        split; [|auto]. apply in_app_or in Hin2. destruct Hin2 as [Hin2|[Heq|Hin2]]; [apply in_or_app; auto| |apply in_or_app; auto].
        injection Heq as <- <-. exfalso. rewrite Forall_forall in Hk. specialize (Hk _ Hin). cbn [fst] in Hk.
        assert (Hh : k_hashable KO k1 = true).
        { match goal with HF : Forall _ l |- _ => rewrite Forall_forall in HF; exact (HF _ Hin) end. }
        rewrite (ke_trans KO KE k1 k' k) in Hk; auto; [discriminate|]. apply (ke_sym KO KE); auto.
      + exists ((k', v') :: m'). split; [|constructor; auto].
        transitivity ((k', v') :: m1 ++ m2); [symmetry; apply Permutation_middle|]. now constructor.
  Qed.
End Maps.

Section MapAgrees.
  Context {K V : Type} (KO : key K) (KE : key_equivalence KO).
  Context (kvalid : K -> Prop) (ksize : K -> Z) (kcanon : K -> K) (kdecodable : K -> Prop) (QK : equality K).
  Context (vvalid : V -> Prop) (vsize : V -> Z) (vcanon : V -> V) (vdecodable : V -> Prop) (QV : equality V).
  Context (AK : agrees kvalid ksize kcanon kdecodable QK) (AV : agrees vvalid vsize vcanon vdecodable QV).
  Context (EK : q_eqb QK = k_eqb KO).
  Notation mvalid := (hash_map KO kvalid vvalid).
  Notation mcanon := (map (on_both kcanon vcanon)).

  Lemma map_parts (PK : K -> Prop) (PV : V -> Prop) m : hash_map KO PK PV m -> Forall (fun kv => k_hashable KO (fst kv) = true) m /\ distinct_keys (k_eqb KO) m /\
    forall k v, In (k, v) m -> PK k /\ k_hashable KO k = true /\ PV v.
  Proof.
    intros [H D]. split; [eapply Forall_impl; [|exact H]; cbn; intuition|]. split; [exact D|]. intros k v Hin.
    rewrite Forall_forall in H. exact (H _ Hin).
  Qed.
  Lemma in_canon k v m : In (k, v) (mcanon m) <-> exists k0 v0, In (k0, v0) m /\ k = kcanon k0 /\ v = vcanon v0.
  Proof.
    rewrite in_map_iff. split.
    - intros ([k0 v0] & E & Hin). injection E as <- <-. exists k0, v0. auto.
    - intros (k0 & v0 & Hin & -> & ->). exists (k0, v0). auto.
  Qed.

  Lemma map_agrees size : (forall l m, Forall2 (fun a b => ksize (fst a) = ksize (fst b) /\ vsize (snd a) = vsize (snd b)) l m -> size l = size m) ->
    (forall l m, Permutation l m -> size l = size m) ->
    agrees mvalid size mcanon (hash_map KO kdecodable vdecodable) (map_Q QK QV).
  Proof.
    intros HS HP. destruct AK as [Ksame Krefl Ksym Ktrans Ksize Kll Kcanon Kleq Kcl]. destruct AV as [Vsame Vrefl Vsym Vtrans Vsize Vll Vcanon Vleq Vcl].
    constructor; cbn [q_eqb q_same q_lossless map_Q]; rewrite ?EK in *.
    - intros a b Ha Hb. destruct (map_parts _ _ _ Ha) as (ha & da & pa). destruct (map_parts _ _ _ Hb) as (hb & db & pb).
      rewrite (map_eqb_found KO KE) by assumption. unfold same_entries. split; intros [HL H]; (split; [exact HL|]); intros k v Hin;
        destruct (H _ _ Hin) as (k' & v' & Hin' & E1 & E2); exists k', v'; destruct (pa _ _ Hin) as (? & ? & ?), (pb _ _ Hin') as (? & ? & ?);
        (split; [exact Hin'|]); split.
      + now apply Ksame.
      + now apply Vsame.
      + apply (Ksame k k'); assumption.
      + now apply Vsame.
    - intros a Ha. destruct (map_parts _ _ _ Ha) as (ha & da & pa). apply (map_eqb_found KO KE); auto. split; [reflexivity|].
      intros k v Hin. exists k, v. destruct (pa _ _ Hin) as (? & ? & ?). auto.
    - intros a b Ha Hb E. destruct (map_parts _ _ _ Ha) as (ha & da & pa). destruct (map_parts _ _ _ Hb) as (hb & db & pb).
      apply (map_eqb_found KO KE) in E; auto. destruct E as [HL H]. apply (map_eqb_found KO KE); auto. split; [easy|].
      destruct (matching KO KE (fun v v' => q_eqb QV v v' = true) a b ha hb da HL H) as (b' & HPm & HF).
      intros k v Hin. apply (Permutation_in _ HPm) in Hin as Hin'. clear HPm H HL.
      assert (exists k' v', In (k', v') a /\ k_eqb KO k' k = true /\ q_eqb QV v' v = true) as (k' & v' & Hin2 & E1 & E2).
      { induction HF as [|x y l l' Hxy HF IH]; [easy|]. destruct Hin' as [->|Hin'].
        - destruct x as [k' v']. exists k', v'. cbn [fst snd] in Hxy. intuition.
        - inversion ha; inversion da; subst. destruct IH as (k' & v' & ? & ? & ?); auto.
          + split; [|assumption]. destruct Ha as [Ha1 Ha2]. now inversion Ha1.
          + intros. apply pa. now right.
          + exists k', v'. intuition. }
      exists k', v'. destruct (pa _ _ Hin2) as (? & ? & ?), (pb _ _ Hin) as (? & ? & ?). split; [exact Hin2|]. split; [now apply Ksym|now apply Vsym].
    - intros a b c Ha Hb Hc E F. destruct (map_parts _ _ _ Ha) as (ha & da & pa). destruct (map_parts _ _ _ Hb) as (hb & db & pb).
      destruct (map_parts _ _ _ Hc) as (hc & dc & pc).
      apply (map_eqb_found KO KE) in E; auto. apply (map_eqb_found KO KE) in F; auto. destruct E as [HL H]. destruct F as [HL2 H2].
      apply (map_eqb_found KO KE); auto. split; [congruence|]. intros k v Hin. destruct (H _ _ Hin) as (k1 & v1 & Hin1 & E1 & E2).
      destruct (H2 _ _ Hin1) as (k2 & v2 & Hin2 & F1 & F2). exists k2, v2.
      destruct (pa _ _ Hin) as (? & ? & ?), (pb _ _ Hin1) as (? & ? & ?), (pc _ _ Hin2) as (? & ? & ?).
      split; [exact Hin2|]. split; [now apply (Ktrans k k1 k2)|now apply (Vtrans v v1 v2)].
    - intros a b Ha Hb E. destruct (map_parts _ _ _ Ha) as (ha & da & pa). destruct (map_parts _ _ _ Hb) as (hb & db & pb).
      apply (map_eqb_found KO KE) in E; auto. destruct E as [HL H].
      destruct (matching KO KE (fun v v' => q_eqb QV v v' = true) a b ha hb da HL H) as (b' & HPm & HF). rewrite (HP _ _ HPm). apply HS.
      assert (pb' : forall k v, In (k, v) b' -> kvalid k /\ k_hashable KO k = true /\ vvalid v).
      { intros k v Hin. apply pb. now apply (Permutation_in _ (Permutation_sym HPm)). }
      clear - Ksize Vsize pa pb' HF. induction HF as [|[k v] [k' v'] l l' [E1 E2] HF IH]; constructor.
      + cbn [fst snd] in *. destruct (pa k v) as (? & ? & ?); [now left|]. destruct (pb' k' v') as (? & ? & ?); [now left|]. auto.
      + apply IH; intros; [apply pa|apply pb']; now right.
    - intros a Ha Hd. destruct (map_parts _ _ _ Ha) as (ha & da & pa). destruct (map_parts _ _ _ Hd) as (hd & dd & pd).
      assert (pd' : forall k v, In (k, v) a -> kdecodable (kcanon k) /\ vdecodable (vcanon v)).
      { intros k v Hin. destruct (pd (kcanon k) (vcanon v)) as (? & ? & ?); [|auto]. apply in_canon. exists k, v. auto. }
      rewrite (map_eqb_found KO KE) by assumption. rewrite Forall_forall. split.
      + intros [_ H] [k v] Hin. unfold both. cbn [fst snd]. destruct (pa _ _ Hin) as (? & ? & ?). destruct (pd' _ _ Hin) as [? ?].
        destruct (H _ _ Hin) as (k1 & v1 & Hin1 & E1 & E2). apply in_canon in Hin1 as Hin1'. destruct Hin1' as (k0 & v0 & Hin0 & -> & ->).
        assert (Hlk : q_lossless QK k) by (apply (Kleq k (kcanon k0)); auto). split; [exact Hlk|].
        apply Kll in Hlk; auto. assert (Hc : In (kcanon k, vcanon v) (mcanon a)) by (apply in_canon; exists k, v; auto).
        assert (G1 : hm_get (k_eqb KO) k (mcanon a) = Some (vcanon v)) by (apply (maps_to_get KO KE); auto; exists (kcanon k); auto).
        assert (G2 : hm_get (k_eqb KO) k (mcanon a) = Some (vcanon v0)) by (apply (maps_to_get KO KE); auto; exists (kcanon k0); auto).
        apply Vll; auto. congruence.
      + intros H. split; [now rewrite map_length|]. intros k v Hin. destruct (pa _ _ Hin) as (? & ? & ?). destruct (pd' _ _ Hin) as [? ?].
        exists (kcanon k), (vcanon v). destruct (H _ Hin) as [? ?]. split; [apply in_canon; exists k, v; auto|]. split; [now apply Kll|now apply Vll].
    - intros a b Ha Hb Da Db E. destruct (map_parts _ _ _ Ha) as (ha & da & pa). destruct (map_parts _ _ _ Hb) as (hb & db & pb).
      destruct (map_parts _ _ _ Da) as (ha' & da' & pa'). destruct (map_parts _ _ _ Db) as (hb' & db' & pb').
      apply (map_eqb_found KO KE) in E; auto. destruct E as [HL H]. apply (map_eqb_found KO KE); auto. split; [now rewrite !map_length|].
      intros k v Hin. apply in_canon in Hin as Hin'. destruct Hin' as (k0 & v0 & Hin0 & -> & ->).
      destruct (H _ _ Hin0) as (k1 & v1 & Hin1 & E1 & E2). assert (Hc : In (kcanon k1, vcanon v1) (mcanon b)) by (apply in_canon; exists k1, v1; auto).
      exists (kcanon k1), (vcanon v1). split; [exact Hc|].
      destruct (pa _ _ Hin0) as (? & ? & ?), (pb _ _ Hin1) as (? & ? & ?), (pa' _ _ Hin) as (? & ? & ?), (pb' _ _ Hc) as (? & ? & ?). auto.
    - intros a b E Hl. unfold map_eqb in E. apply andb_true_iff in E as [_ E]. rewrite forallb_forall in E. rewrite Forall_forall in *.
      intros [k v] Hin. specialize (E _ Hin). cbn [fst snd] in E.
      assert (Hget : forall (m : list (K * V)) v', hm_get (k_eqb KO) k m = Some v' -> exists k', In (k', v') m /\ k_eqb KO k k' = true).
      { induction m as [|[k1 v1] m IH]; intros v' G; [discriminate|]. cbn [hm_get] in G. destruct (k_eqb KO k k1) eqn:Ek.
        - injection G as <-. exists k1. split; [now left|exact Ek].
        - destruct (IH _ G) as (k' & ? & ?). exists k'. split; [now right|assumption]. }
      destruct (hm_get (k_eqb KO) k b) as [v'|] eqn:G; [|discriminate]. destruct (Hget _ _ G) as (k' & Hin' & Ek).
      destruct (Hl _ Hin') as [L1 L2]. cbn [fst snd] in *. split; eauto.
    - intros a. apply Forall_map, Forall_forall. intros [k v] _. split; [apply Kcl|apply Vcl].
  Qed.
End MapAgrees.

Lemma str_len_same s t : str_bytes s = str_bytes t -> str_len s = str_len t.
Proof. destruct s, t; cbn [str_bytes str_len]; congruence. Qed.

(** ** Generic values *)
Lemma variant_eqb_vec l m : variant_eqb (VList l) (VList m) = vec_eqb variant_eqb l m.
Proof. reflexivity. Qed.
Lemma variant_eqb_entries l m : variant_eqb (VMap l) (VMap m) = map_eqb variant_eqb variant_eqb l m.
Proof. apply variant_eqb_map. Qed.
Lemma lossless_list l : lossless (VList l) <-> Forall lossless l.
Proof. apply all_prop_Forall. Qed.
Lemma lossless_map m : lossless (VMap m) <-> Forall (both lossless lossless) m.
Proof. cbn [lossless]. apply (all_prop_pair _ _ (fun k w => lossless k /\ lossless w)). easy. Qed.
Lemma decodable_list l : decodable (VList l) <-> Forall decodable l.
Proof. apply all_prop_Forall. Qed.
Lemma decodable_map m : decodable (VMap m) <-> hash_map variant_key decodable decodable m.
Proof.
  cbn [decodable]. unfold hash_map.
  rewrite (all_prop_pair _ _ (fun k w => decodable k /\ variant_hashable k = true /\ decodable w)); easy.
Qed.
Lemma variant_ok_list l : variant_ok (VList l) <-> Forall variant_ok l.
Proof. apply all_prop_Forall. Qed.
Lemma variant_ok_entries m : variant_ok (VMap m) <-> hash_map variant_key variant_ok variant_ok m.
Proof.
  cbn [variant_ok]. unfold hash_map.
  rewrite (all_prop_pair _ _ (fun k w => variant_ok k /\ variant_hashable k = true /\ variant_ok w)); easy.
Qed.
Lemma canon_map m : canon (VMap m) = VMap (map (on_both canon canon) m).
Proof. cbn [canon]. f_equal. apply map_ext. now intros []. Qed.

Lemma variant_lossless_eq a : forall b, variant_eqb a b = true -> lossless b -> lossless a.
Proof.
  induction a using variant_ind'; intros b' E Hl; destruct b'; try discriminate E; try exact I.
  - cbn [variant_eqb] in E. apply datetime_eqb_eq in E. subst. exact Hl.
  - destruct Hl.
  - rewrite variant_eqb_vec in E. rewrite lossless_list in *. revert l0 E Hl. induction H as [|x l Hx _ IH]; intros [|y m] E Hl; try discriminate E; [constructor|].
    cbn [vec_eqb] in E. apply andb_true_iff in E as [E1 E2]. inversion Hl; subst. constructor; eauto.
  - rewrite variant_eqb_entries in E. rewrite lossless_map in *. unfold map_eqb in E. apply andb_true_iff in E as [_ E]. rewrite forallb_forall in E.
    rewrite Forall_forall in *. intros [k v] Hin. specialize (E _ Hin). destruct (H _ Hin) as [IHk IHv]. cbn [fst snd] in *.
    destruct (hm_get variant_eqb k m0) as [v'|] eqn:G; [|discriminate]. apply hm_get_in in G as (k' & Hin' & Ek). destruct (Hl _ Hin'). split; eauto.
  - cbn [variant_eqb lossless] in *. apply andb_true_iff in E as [_ E]. eauto.
Qed.
Lemma variant_canon_lossless a : lossless (canon a).
Proof.
  induction a using variant_ind'; try exact I.
  - cbn [canon lossless]. unfold instant. cbn [dt_nanos]. generalize (millis t). intros z. lia.
  - cbn [canon]. apply lossless_list. now apply Forall_map.
  - rewrite canon_map. apply lossless_map. apply Forall_map. exact H.
  - exact IHa.
Qed.

Lemma Forall2_weaken {A B} (P Q : A -> B -> Prop) l m : (forall a b, P a b -> Q a b) -> Forall2 P l m -> Forall2 Q l m.
Proof. induction 2; constructor; auto. Qed.
Lemma zsum_permutation {T} (f : T -> Z) l m : Permutation l m -> zsum f l = zsum f m.
Proof. induction 1; cbn [zsum fold_right map] in *; unfold zsum in *; cbn [fold_right map] in *; lia. Qed.
Lemma zsum_Forall2 {T} (f : T -> Z) l m : Forall2 (fun a b => f a = f b) l m -> zsum f l = zsum f m.
Proof. induction 1; unfold zsum in *; cbn [fold_right map] in *; lia. Qed.
Lemma map_size_permutation {K V} (sk : K -> Z) (sv : V -> Z) l m : Permutation l m -> map_size sk sv l = map_size sk sv m.
Proof. intros H. unfold map_size, map_encoded_size. now rewrite (zsum_permutation _ _ _ H). Qed.
Lemma map_size_Forall2 {K V} (sk : K -> Z) (sv : V -> Z) l m :
  Forall2 (fun a b => sk (fst a) = sk (fst b) /\ sv (snd a) = sv (snd b)) l m -> map_size sk sv l = map_size sk sv m.
Proof.
  intros H. unfold map_size, map_encoded_size. enough (E : zsum (fun '(k, v) => sk k + sv v) l = zsum (fun '(k, v) => sk k + sv v) m) by now rewrite E.
  apply zsum_Forall2. eapply Forall2_weaken; [|exact H]. intros [k v] [k' v']. cbn [fst snd]. intros []. congruence.
Qed.
Lemma list_size_Forall2 {T} (f : T -> Z) l m : Forall2 (fun a b => f a = f b) l m -> list_size f l = list_size f m.
Proof. intros H. unfold list_size, list_encoded_size. now rewrite (zsum_Forall2 _ _ _ H). Qed.

(** Values of at most some depth, one level after the other. *)
Definition shallow (n : nat) (v : variant) : Prop := variant_ok v /\ depth v <= Z.of_nat n.
Lemma depth_pos v : 1 <= depth v.
Proof.
  induction v using variant_ind'; cbn [depth]; try lia.
  - assert (0 <= fold_right Z.max 0 (map depth l)); [|lia]. clear. induction l; cbn [map fold_right]; lia.
  - match goal with |- _ <= 1 + fold_right Z.max 0 ?x => assert (0 <= fold_right Z.max 0 x); [|lia] end. clear. induction m; cbn [map fold_right]; lia.
Qed.
Lemma max_le {T} (f : T -> Z) l n : fold_right Z.max 0 (map f l) <= n -> Forall (fun x => f x <= n) l.
Proof. induction l as [|x l IH]; cbn [map fold_right]; constructor; [lia|]. apply IH. lia. Qed.
Lemma shallow_list n l : shallow (S n) (VList l) -> Forall (shallow n) l.
Proof.
  intros [Hok Hd]. apply variant_ok_list in Hok. cbn [depth] in Hd. assert (H : Forall (fun v => depth v <= Z.of_nat n) l) by (apply max_le; lia).
  rewrite Forall_forall in *. unfold shallow. auto.
Qed.
Lemma shallow_map n m : shallow (S n) (VMap m) -> hash_map variant_key (shallow n) (shallow n) m.
Proof.
  intros [Hok Hd]. apply variant_ok_entries in Hok as [Hok Hdk]. split; [|exact Hdk]. cbn [depth] in Hd.
  assert (H : Forall (fun kv : variant * variant => (let (k, w) := kv in Z.max (depth k) (depth w)) <= Z.of_nat n) m) by (apply max_le; lia).
  rewrite Forall_forall in *. intros [k v] Hin. specialize (H _ Hin). destruct (Hok _ Hin) as (? & ? & ?). cbn [fst snd] in *. unfold shallow.
  repeat split; auto; lia.
Qed.
Lemma list_agrees_of valid : agrees valid variant_size canon decodable variant_Q ->
  agrees (Forall valid) (list_size variant_size) (map canon) (Forall decodable) (vec_Q variant_Q).
Proof.
  intros A. apply (vec_agrees _ _ _ _ _ _ A). intros l m H. apply list_size_Forall2. eapply Forall2_weaken; [|exact H].
  intros a b (? & ? & ?). now apply (ag_size _ _ _ _ _ A).
Qed.
Lemma vmap_agrees_of valid : agrees valid variant_size canon decodable variant_Q ->
  agrees (hash_map variant_key valid valid) (map_size variant_size variant_size) (map (on_both canon canon))
    (hash_map variant_key decodable decodable) vmap_Q.
Proof.
  intros A. eapply (map_agrees variant_key variant_key_equivalence); [exact A|exact A|reflexivity| |]; intros.
  - now apply map_size_Forall2.
  - now apply map_size_permutation.
Qed.
Lemma descriptor_size_same d e : descriptor_eqb d e = true -> descriptor_size d = descriptor_size e.
Proof.
  intros E. apply descriptor_eqb_same in E. destruct E as [|s t E]; [reflexivity|]. cbn [descriptor_size].
  unfold symbol_size. now rewrite (str_len_same _ _ E).
Qed.
Lemma shallow_agrees n : agrees (shallow n) variant_size canon decodable variant_Q.
Proof.
  induction n as [|n IH].
  { constructor; cbn [q_eqb q_same q_lossless variant_Q].
    8: exact variant_lossless_eq.
    8: exact variant_canon_lossless.
    all: intros a; intros; exfalso; match goal with H : shallow 0 a |- _ => destruct H as [_ H]; pose proof (depth_pos a); lia end. }
  pose proof (list_agrees_of _ IH) as AL. pose proof (vmap_agrees_of _ IH) as AM.
  constructor; cbn [q_eqb q_same q_lossless variant_Q].
  - intros a b [Ha _] [Hb _]. now apply variant_eqb_same.
  - intros a [Ha _]. now apply variant_eqb_refl.
  - intros a b [Ha _] [Hb _]. now apply variant_eqb_sym_true.
  - intros a b c [Ha _] [Hb _] [Hc _]. now apply variant_eqb_trans.
  - intros a b Ha Hb E. destruct a, b; try discriminate E; try reflexivity; cbn [variant_eqb variant_size] in E |- *;
      repeat match goal with
      | H : (_ =? _) = true |- _ => apply Z.eqb_eq in H; subst
      | H : Bool.eqb _ _ = true |- _ => apply eqb_prop in H; subst
      | H : bytes_eqb _ _ = true |- _ => apply bytes_eqb_eq in H; subst
      end; try reflexivity.
    + apply str_eqb_spec in E. unfold str_size. now rewrite (str_len_same _ _ E).
    + apply str_eqb_spec in E. unfold symbol_size. now rewrite (str_len_same _ _ E).
    + change (variant_eqb (VList l) (VList l0) = true) in E. rewrite variant_eqb_vec in E. apply (ag_size _ _ _ _ _ AL); auto using shallow_list.
    + change (variant_eqb (VMap m) (VMap m0) = true) in E. rewrite variant_eqb_entries in E. apply (ag_size _ _ _ _ _ AM); auto using shallow_map.
    + apply andb_true_iff in E as [E1 E2]. rewrite (descriptor_size_same _ _ E1). f_equal. apply (ag_size _ _ _ _ _ IH); auto.
      * destruct Ha as [Ha1 Ha2]. cbn [variant_ok depth] in *. split; [tauto|lia].
      * destruct Hb as [Hb1 Hb2]. cbn [variant_ok depth] in *. split; [tauto|lia].
  - intros a Ha Hd. split; [intros E; apply (variant_lossless_eq _ _ E); apply variant_canon_lossless|]. intros Hl. apply canon_equal; [apply Ha|exact Hl].
  - intros a b Ha Hb Da Db E. destruct a, b; try discriminate E; try exact E; cbn [variant_eqb canon] in E |- *.
    + apply datetime_eqb_eq in E. subst. now apply datetime_eqb_eq.
    + apply str_eqb_spec in E. apply str_eqb_spec. now destruct s, s0.
    + apply str_eqb_spec in E. apply str_eqb_spec. now destruct s, s0.
    + change (variant_eqb (VList (map canon l)) (VList (map canon l0)) = true). change (variant_eqb (VList l) (VList l0) = true) in E.
      rewrite variant_eqb_vec in *. cbn [canon] in Da, Db. apply decodable_list in Da, Db. apply (ag_canon _ _ _ _ _ AL); auto using shallow_list.
    + change (variant_eqb (canon (VMap m)) (canon (VMap m0)) = true). change (variant_eqb (VMap m) (VMap m0) = true) in E.
      rewrite canon_map in *. rewrite canon_map in *. rewrite variant_eqb_entries in *. apply decodable_map in Da, Db.
      apply (ag_canon _ _ _ _ _ AM); auto using shallow_map.
    + apply andb_true_iff in E as [E1 E2]. apply andb_true_iff. split.
      * apply descriptor_eqb_same in E1. apply descriptor_eqb_same. destruct E1 as [|s t E1]; [constructor|]. constructor. now destruct s, t.
      * cbn [canon decodable] in Da, Db. apply (ag_canon _ _ _ _ _ IH); try tauto.
        -- destruct Ha as [Ha1 Ha2]. cbn [variant_ok depth] in *. split; [tauto|lia].
        -- destruct Hb as [Hb1 Hb2]. cbn [variant_ok depth] in *. split; [tauto|lia].
  - intros a b. apply variant_lossless_eq.
  - apply variant_canon_lossless.
Qed.
Lemma variant_agrees : agrees_S variant_S variant_Q.
Proof.
  assert (H : forall v, variant_ok v -> forall n, depth v <= Z.of_nat n -> shallow n v) by (intros; split; assumption).
  constructor; cbn [q_eqb q_same q_lossless variant_Q s_valid s_size s_codec s_canon s_decodable variant_S c_E variant_C e_size variant_E].
  - intros a b Ha Hb. now apply variant_eqb_same.
  - intros a Ha. now apply variant_eqb_refl.
  - intros a b Ha Hb. now apply variant_eqb_sym_true.
  - intros a b c Ha Hb Hc. now apply variant_eqb_trans.
  - intros a b Ha Hb. apply (ag_size _ _ _ _ _ (shallow_agrees (Z.to_nat (Z.max (depth a) (depth b))))); apply H; auto; lia.
  - intros a Ha. apply (ag_lossless _ _ _ _ _ (shallow_agrees (Z.to_nat (depth a)))); apply H; auto; lia.
  - intros a b Ha Hb. apply (ag_canon _ _ _ _ _ (shallow_agrees (Z.to_nat (Z.max (depth a) (depth b))))); apply H; auto; lia.
  - apply variant_lossless_eq.
  - apply variant_canon_lossless.
Qed.
Lemma list_agrees : agrees_S list_S (vec_Q variant_Q).
Proof. exact (list_agrees_of _ variant_agrees). Qed.

(** ** Maps, vectors, enumerations *)
Lemma map_agrees_S {K V} (KO : key K) (SK : tspec K) (SV : tspec V) QK QV : key_equivalence KO -> agrees_S SK QK -> agrees_S SV QV ->
  q_eqb QK = k_eqb KO -> agrees_S (map_S KO SK SV) (map_Q QK QV).
Proof.
  intros KE AK AV E. apply (map_agrees KO KE _ _ _ _ _ _ _ _ _ _ AK AV E); intros.
  - now apply map_size_Forall2.
  - now apply map_size_permutation.
Qed.
Lemma option_agrees_S {T} (S : tspec T) Q : agrees_S S Q -> agrees_S (option_S S) (option_Q Q).
Proof. intros A. now apply (option_agrees _ _ _ _ _ _ A). Qed.
Lemma str_agrees : agrees_S str_S text_Q.
Proof. apply text_agrees. intros s t E. cbn. unfold str_size. now rewrite (str_len_same _ _ E). Qed.
Lemma symbol_agrees : agrees_S symbol_S text_Q.
Proof. apply text_agrees. intros s t E. cbn. unfold symbol_size. now rewrite (str_len_same _ _ E). Qed.
Lemma bool_agrees : agrees_S bool_S (plain_Q Bool.eqb).
Proof. apply plain_agrees. intros. apply eqb_true_iff. Qed.
Lemma z_agrees (S : tspec Z) : s_canon S = same -> agrees_S S (plain_Q Z.eqb).
Proof. intros E. unfold agrees_S. rewrite E. apply plain_agrees. apply Z.eqb_eq. Qed.
Lemma bytes_agrees (S : tspec bytes) : s_canon S = same -> agrees_S S (plain_Q bytes_eqb).
Proof. intros E. unfold agrees_S. rewrite E. apply plain_agrees. apply bytes_eqb_eq. Qed.
Lemma fields_agrees : agrees_S fields_S fields_Q.
Proof. apply map_agrees_S; [exact str_key_equivalence|exact symbol_agrees|exact variant_agrees|reflexivity]. Qed.
Lemma string_variant_map_agrees : agrees_S string_variant_map_S fields_Q.
Proof. apply map_agrees_S; [exact str_key_equivalence|exact str_agrees|exact variant_agrees|reflexivity]. Qed.
Lemma vmap_agrees : agrees_S vmap_S vmap_Q.
Proof. apply map_agrees_S; [exact variant_key_equivalence|exact variant_agrees|exact variant_agrees|reflexivity]. Qed.
Lemma filter_set_agrees : agrees_S filter_set_S filter_set_Q.
Proof. apply map_agrees_S; [exact str_key_equivalence|exact symbol_agrees|apply option_agrees_S; now apply bytes_agrees|reflexivity]. Qed.
Lemma symbols_agrees : agrees_S symbols_S symbols_Q.
Proof.
  apply (vec_agrees _ _ _ _ _ _ symbol_agrees). intros l m H.
  assert (F : Forall2 (fun s t => str_len s = str_len t) l m).
  { eapply Forall2_weaken; [|exact H]. intros s t (_ & _ & E). apply str_len_same. now apply str_eqb_spec. }
  clear H. cbn. unfold multiple_size. assert (E : vec_size symbol_A l = vec_size symbol_A m).
  { unfold vec_size, array_encoded_size. enough (Es : zsum (a_size symbol_A) l = zsum (a_size symbol_A) m) by now rewrite Es.
    apply zsum_Forall2. eapply Forall2_weaken; [|exact F]. unfold symbol_A. cbn [a_size]. intros a b Hab. now rewrite Hab. }
  destruct F as [|s t l m Hst F]; [reflexivity|]. destruct F as [|s' t' l m Hst' F]; [|exact E].
  cbn. unfold symbol_size. now rewrite Hst.
Qed.

Ltac enum_agrees_tac := apply plain_agrees; intros [] []; split; (reflexivity || discriminate || easy).
Lemma role_agrees : agrees_S role_S role_Q. Proof. enum_agrees_tac. Qed.
Lemma sender_settle_mode_agrees : agrees_S sender_settle_mode_S sender_settle_mode_Q. Proof. enum_agrees_tac. Qed.
Lemma receiver_settle_mode_agrees : agrees_S receiver_settle_mode_S receiver_settle_mode_Q. Proof. enum_agrees_tac. Qed.
Lemma sasl_code_agrees : agrees_S sasl_code_S sasl_code_Q. Proof. enum_agrees_tac. Qed.
Lemma terminus_durability_agrees : agrees_S terminus_durability_S terminus_durability_Q. Proof. enum_agrees_tac. Qed.
Lemma terminus_expiry_policy_agrees : agrees_S terminus_expiry_policy_S terminus_expiry_policy_Q. Proof. enum_agrees_tac. Qed.
Lemma amqp_error_eqb_eq a b : amqp_error_eqb a b = true <-> a = b. Proof. destruct a, b; split; (reflexivity || discriminate || easy). Qed.
Lemma connection_error_eqb_eq a b : connection_error_eqb a b = true <-> a = b. Proof. destruct a, b; split; (reflexivity || discriminate || easy). Qed.
Lemma session_error_eqb_eq a b : session_error_eqb a b = true <-> a = b. Proof. destruct a, b; split; (reflexivity || discriminate || easy). Qed.
Lemma link_error_eqb_eq a b : link_error_eqb a b = true <-> a = b. Proof. destruct a, b; split; (reflexivity || discriminate || easy). Qed.
Lemma amqp_error_agrees : agrees_S amqp_error_S amqp_error_Q. Proof. apply plain_agrees, amqp_error_eqb_eq. Qed.
Lemma connection_error_agrees : agrees_S connection_error_S connection_error_Q. Proof. apply plain_agrees, connection_error_eqb_eq. Qed.
Lemma session_error_agrees : agrees_S session_error_S session_error_Q. Proof. apply plain_agrees, session_error_eqb_eq. Qed.
Lemma link_error_agrees : agrees_S link_error_S link_error_Q. Proof. apply plain_agrees, link_error_eqb_eq. Qed.
Lemma message_id_agrees : agrees_S message_id_S message_id_Q.
Proof.
  apply plain_agrees. intros [x|x|x|x] [y|y|y|y]; cbn [message_id_eqb]; try easy; rewrite ?Z.eqb_eq, ?bytes_eqb_eq; split; congruence.
Qed.
Lemma lookup_name_none {T} text (table : list (T * string)) :
  lookup_name text table = None <-> forall y t, In (y, t) table -> text <> s2b t.
Proof.
  induction table as [|[x t] r IH]; cbn [lookup_name]; [easy|]. destruct (bytes_eqb text (s2b t)) eqn:E.
  - apply bytes_eqb_eq in E. split; [discriminate|]. intros H. exfalso. exact (H x t (or_introl eq_refl) E).
  - rewrite IH. split; intros H y t' Hin.
    + destruct Hin as [Hin|Hin]; [|now apply (H y)]. injection Hin as <- <-. intros F. apply bytes_eqb_eq in F. congruence.
    + apply (H y). now right.
Qed.
Lemma lookup_name_in {T} text (table : list (T * string)) y : lookup_name text table = Some y -> exists t, In (y, t) table.
Proof.
  induction table as [|[x t] r IH]; cbn [lookup_name]; [easy|]. destruct (bytes_eqb text (s2b t)).
  - injection 1 as <-. exists t. now left.
  - intros E. destruct (IH E) as (t' & ?). exists t'. now right.
Qed.
Lemma open_enum_agrees {T} (C : codec T) eqb (table : list (T * string)) (custom : symbol -> T) (get_custom : T -> option symbol) :
  (forall x s, get_custom x = Some s <-> x = custom s) -> Forall (fun e => get_custom (fst e) = None) table ->
  (forall a b, eqb a b = true <-> match get_custom a, get_custom b with Some s, Some t => str_bytes s = str_bytes t | None, None => a = b | _, _ => False end) ->
  (forall s t, str_bytes s = str_bytes t -> e_size (c_E C) (custom s) = e_size (c_E C) (custom t)) ->
  agrees_S (open_enum_S C table custom get_custom) (open_enum_Q eqb table get_custom).
Proof.
  intros HC HT HE HS.
  assert (HC' : forall s, get_custom (custom s) = Some s) by (intros; now apply HC).
  assert (HL : forall text y, lookup_name text table = Some y -> get_custom y = None).
  { intros text y E. apply lookup_name_in in E as (t & Hin). rewrite Forall_forall in HT. exact (HT _ Hin). }
  constructor; cbn [q_eqb q_same q_lossless open_enum_Q s_valid s_size s_canon s_decodable open_enum_S s_codec].
  - intros a b _ _. apply HE.
  - intros a _. apply HE. destruct (get_custom a); reflexivity.
  - intros a b _ _ E. apply HE in E. apply HE. destruct (get_custom a), (get_custom b); easy.
  - intros a b c _ _ _ E F. apply HE in E, F. apply HE. destruct (get_custom a), (get_custom b), (get_custom c); try easy; congruence.
  - intros a b _ _ E. apply HE in E. destruct (get_custom a) as [s|] eqn:Ea, (get_custom b) as [t|] eqn:Eb; try easy; [|now subst].
    apply HC in Ea, Eb. subst. unfold s_size. cbn [s_codec]. now apply HS.
  - intros a _ _. rewrite HE. destruct (get_custom a) as [s|] eqn:Ea; cbn [opt_prop]; [|now rewrite Ea].
    rewrite <- lookup_name_none. destruct (lookup_name (str_bytes s) table) as [y|] eqn:El.
    + rewrite (HL _ _ El). split; [easy|discriminate].
    + rewrite HC'. split; [easy|]. intros _. now destruct s.
  - intros a b _ _ _ _ E. apply HE in E. apply HE. destruct (get_custom a) as [s|] eqn:Ea, (get_custom b) as [t|] eqn:Eb; try easy.
    + rewrite E. destruct (lookup_name (str_bytes t) table) as [y|] eqn:El; [now rewrite (HL _ _ El)|]. rewrite !HC'. now destruct s, t.
    + now rewrite Ea, Eb.
  - intros a b E. apply HE in E. destruct (get_custom a) as [s|], (get_custom b) as [t|]; try easy. cbn [opt_prop]. rewrite E. easy.
  - intros a. destruct (get_custom a) as [s|] eqn:Ea; [|now rewrite Ea]. destruct (lookup_name (str_bytes s) table) as [y|] eqn:El.
    + now rewrite (HL _ _ El).
    + rewrite HC'. cbn [opt_prop]. apply lookup_name_none. now destruct s.
Qed.
Lemma error_condition_agrees : agrees_S error_condition_S error_condition_Q.
Proof.
  apply open_enum_agrees.
  - intros x s. destruct x; cbn; split; congruence.
  - repeat (constructor; [reflexivity|]). constructor.
  - intros [x|x|x|x|x] [y|y|y|y|y]; cbn [error_condition_eqb condition_custom]; try easy;
      rewrite ?amqp_error_eqb_eq, ?connection_error_eqb_eq, ?session_error_eqb_eq, ?link_error_eqb_eq; try (split; congruence).
    apply str_eqb_spec.
  - intros s t E. cbn. unfold symbol_size. now rewrite (str_len_same _ _ E).
Qed.
Lemma distribution_mode_agrees : agrees_S distribution_mode_S distribution_mode_Q.
Proof.
  apply open_enum_agrees.
  - intros x s. destruct x; cbn; split; congruence.
  - repeat (constructor; [reflexivity|]). constructor.
  - intros [| |x] [| |y]; cbn [distribution_mode_eqb distribution_custom]; try easy. apply str_eqb_spec.
  - intros s t E. cbn. unfold symbol_size. now rewrite (str_len_same _ _ E).
Qed.

(** ** Structures *)
Definition pair_Q {A B} (QA : equality A) (QB : equality B) : equality (A * B) :=
  MkEq (pair_eqb (q_eqb QA) (q_eqb QB)) (fun a b => q_same QA (fst a) (fst b) /\ q_same QB (snd a) (snd b)) (both (q_lossless QA) (q_lossless QB)).
Lemma pair_agrees {A B} va sa ca da (QA : equality A) vb sb cb db (QB : equality B) size : agrees va sa ca da QA -> agrees vb sb cb db QB ->
  (forall x, size x = sa (fst x) + sb (snd x)) ->
  agrees (both va vb) size (fun x => (ca (fst x), cb (snd x))) (both da db) (pair_Q QA QB).
Proof.
  intros [a1 a2 a3 a4 a5 a6 a7 a8 a9] [b1 b2 b3 b4 b5 b6 b7 b8 b9] HS.
  constructor; cbn [q_eqb q_same q_lossless pair_Q]; unfold pair_eqb, both;
    intros; repeat match goal with x : (A * B)%type |- _ => destruct x end; cbn [fst snd] in *;
    repeat match goal with H : _ /\ _ |- _ => destruct H end; repeat match goal with H : _ && _ = true |- _ => apply andb_true_iff in H as [? ?] end;
    rewrite ?andb_true_iff.
  - rewrite a1, b1 by assumption. easy.
  - auto.
  - auto.
  - split; [eapply a4|eapply b4]; eauto.
  - rewrite !HS. cbn [fst snd]. f_equal; auto.
  - rewrite a6, b6 by assumption. easy.
  - auto.
  - split; eauto.
  - auto.
Qed.
Lemma unit_agrees : agrees (fun _ : unit => True) (fun _ => 0) same (fun _ => True) (MkEq (fun _ _ => true) (fun _ _ => True) (fun _ => True)).
Proof. now constructor. Qed.
Lemma agrees_ext {T} v s c d (Q : equality T) s' Q' : agrees v s c d Q -> (forall x, s' x = s x) -> (forall a b, q_eqb Q' a b = q_eqb Q a b) ->
  q_same Q' = q_same Q -> q_lossless Q' = q_lossless Q -> agrees v s' c d Q'.
Proof.
  intros [a1 a2 a3 a4 a5 a6 a7 a8 a9] HS HE H1 H2. constructor; intros; rewrite ?HE, ?HS, ?H1, ?H2 in *; eauto.
Qed.

Fixpoint columns_eqb {R} (F : fields R) : columns F -> R -> R -> bool :=
  match F in fields R return columns F -> R -> R -> bool with
  | FNil => fun _ _ _ => true
  | FReq _ _ r => fun c a b => q_eqb (fst c) (fst a) (fst b) && columns_eqb r (snd c) (snd a) (snd b)
  | FOpt _ _ r => fun c a b => opt_eqb (q_eqb (fst c)) (fst a) (fst b) && columns_eqb r (snd c) (snd a) (snd b)
  | FDef _ _ _ r => fun c a b => q_eqb (fst c) (fst a) (fst b) && columns_eqb r (snd c) (snd a) (snd b)
  end.
Fixpoint columns_agree {R} (F : fields R) : columns F -> Prop :=
  match F in fields R return columns F -> Prop with
  | FNil => fun _ => True
  | FReq _ t r => fun c => agrees_S t (fst c) /\ columns_agree r (snd c)
  | FOpt _ t r => fun c => agrees_S t (fst c) /\ columns_agree r (snd c)
  | FDef _ t _ r => fun c => agrees_S t (fst c) /\ columns_agree r (snd c)
  end.
Definition columns_Q {R} (F : fields R) (c : columns F) : equality R := MkEq (columns_eqb F c) (columns_same F c) (columns_lossless F c).
Lemma columns_agrees {R} (F : fields R) c : columns_agree F c ->
  agrees (each_field (@s_valid) F) (size_fields F 0) (canon_fields F) (each_field (@s_decodable) F) (columns_Q F c).
Proof.
  induction F as [|T R name t r IH|T R name t r IH|T R name t dflt r IH]; cbn [columns_agree columns] in *.
  - intros _. exact unit_agrees.
  - intros [A B]. destruct c as [q c]. apply (pair_agrees _ _ _ _ _ _ _ _ _ _ _ A (IH _ B)).
    intros x. cbn [size_fields]. now rewrite size_fields_acc.
  - intros [A B]. destruct c as [q c]. apply (pair_agrees _ _ _ _ _ _ _ _ _ _ _ (option_agrees_S _ _ A) (IH _ B)).
    intros x. cbn [size_fields]. now rewrite size_fields_acc.
  - intros [A B]. destruct c as [q c]. apply (pair_agrees _ _ _ _ _ _ _ _ _ _ _ A (IH _ B)).
    intros x. cbn [size_fields]. now rewrite size_fields_acc.
Qed.
Lemma struct_agrees K eqb c : transcribed K -> columns_agree (k_fields K) c ->
  (forall a b, eqb a b = columns_eqb (k_fields K) c (k_to K a) (k_to K b)) -> agrees_D (composite_D K) (struct_Q K eqb c).
Proof.
  intros TR HC HE. destruct (columns_agrees _ _ HC) as [a1 a2 a3 a4 a5 a6 a7 a8 a9]. cbn [columns_Q q_eqb q_same q_lossless] in *.
  constructor; cbn [struct_Q q_eqb q_same q_lossless composite_D d_valid d_E d_canon d_decodable]; intros; rewrite ?HE, ?(tr_to_of K TR), ?(tr_size K TR) in *; eauto.
  f_equal. now apply a5.
Qed.
Lemma struct_agrees_S K Q : agrees_D (composite_D K) Q -> agrees_S (composite_S K) Q.
Proof. intros [a1 a2 a3 a4 a5 a6 a7 a8 a9]. now constructor. Qed.

(** ** Unions *)
Fixpoint choices_eqb {T} (alts : list (alternative T)) : choices alts -> T -> T -> bool :=
  match alts return choices alts -> T -> T -> bool with
  | [] => fun _ _ _ => false
  | a :: r => fun c v w =>
      match a_prj a v, a_prj a w with
      | Some x, Some y => q_eqb (fst c) x y
      | None, None => choices_eqb r (snd c) v w
      | _, _ => false
      end
  end.
Fixpoint choices_agree {T} (alts : list (alternative T)) : choices alts -> Prop :=
  match alts return choices alts -> Prop with
  | [] => fun _ => True
  | a :: r => fun c => agrees_D (a_D a) (fst c) /\ choices_agree r (snd c)
  end.
Lemma canon_union_none {T} (a : alternative T) r v : Forall (fun b => forall x, a_prj a (a_inj b x) = None) r -> a_prj a v = None ->
  a_prj a (canon_union r v) = None.
Proof.
  intros HD E. induction HD as [|b r Hb HD IH]; cbn [canon_union]; [exact E|]. destruct (a_prj b v) as [x|]; [apply Hb|exact IH].
Qed.
Lemma choices_agrees {T} (alts : list (alternative T)) size c : choices_agree alts c ->
  Forall (fun a => forall v x, a_prj a v = Some x <-> v = a_inj a x) alts -> ForallOrdPairs (fun a b => forall x, a_prj a (a_inj b x) = None) alts ->
  Forall (fun a => forall x, size (a_inj a x) = e_size (d_E (a_D a)) x) alts ->
  agrees (the_alternative (@d_valid) alts) size (canon_union alts) (the_alternative (@d_decodable) alts)
    (MkEq (choices_eqb alts c) (choices_same alts c) (choices_lossless alts c)).
Proof.
  induction alts as [|a r IH]; intros HC HP HD HS; [constructor; cbn; easy|].
  inversion HP as [|? ? HP1 HP2]; inversion HD as [|? ? HD1 HD2]; inversion HS as [|? ? HS1 HS2]; subst. destruct c as [q c]. destruct HC as [A HC].
  specialize (IH c HC HP2 HD2 HS2). cbn [fst snd] in *. destruct IH as [a1 a2 a3 a4 a5 a6 a7 a8 a9]. destruct A as [b1 b2 b3 b4 b5 b6 b7 b8 b9].
  assert (HI : forall x, a_prj a (a_inj a x) = Some x) by (intros; now apply HP1).
  constructor; cbn [q_eqb q_same q_lossless choices_eqb choices_same choices_lossless the_alternative canon_union fst snd] in *.
  - intros v w. destruct (a_prj a v), (a_prj a w); intros; try easy; auto.
  - intros v. destruct (a_prj a v); auto.
  - intros v w. destruct (a_prj a v), (a_prj a w); auto.
  - intros u v w. destruct (a_prj a u), (a_prj a v), (a_prj a w); try easy; eauto.
  - intros v w. destruct (a_prj a v) as [x|] eqn:E1, (a_prj a w) as [y|] eqn:E2; try easy; auto. apply HP1 in E1, E2. subst. rewrite !HS1. auto.
  - intros v. destruct (a_prj a v) as [x|] eqn:E1; [rewrite HI; auto|]. rewrite canon_union_none by assumption. auto.
  - intros v w. destruct (a_prj a v) as [x|] eqn:E1, (a_prj a w) as [y|] eqn:E2; rewrite ?HI, ?canon_union_none by assumption; auto.
  - intros v w. destruct (a_prj a v) as [x|] eqn:E1, (a_prj a w) as [y|] eqn:E2; try easy; eauto.
  - intros v. destruct (a_prj a v) as [x|] eqn:E1; [rewrite HI; auto|]. rewrite canon_union_none by assumption. auto.
Qed.
Lemma union_agrees {T} (C : codec T) (alts : list (alternative T)) eqb c : alts_ok alts -> choices_agree alts c ->
  (forall v w, eqb v w = choices_eqb alts c v w) ->
  Forall (fun a => forall x, e_size (c_E C) (a_inj a x) = e_size (d_E (a_D a)) x) alts ->
  agrees_S (union_S C alts) (union_Q alts eqb c).
Proof.
  intros [_ _ HP HD] HC HE HS. eapply agrees_ext; [apply (choices_agrees alts (e_size (c_E C)) c HC HP HD HS)|..]; easy.
Qed.
Lemma section_body_agrees {T} code name (S : tspec T) size enc inner Q : agrees_S S Q -> (forall v, size v = 3 + s_size S v) ->
  agrees_D (section_D code name S size enc inner) Q.
Proof.
  intros [a1 a2 a3 a4 a5 a6 a7 a8 a9] HS. constructor; cbn [section_D d_valid d_E d_canon d_decodable e_size]; auto.
  intros. rewrite !HS. f_equal. auto.
Qed.

(** ** The types *)
Create HintDb agree.
#[export] Hint Resolve bool_agrees datetime_agrees variant_agrees str_agrees symbol_agrees fields_agrees string_variant_map_agrees vmap_agrees filter_set_agrees
  symbols_agrees list_agrees role_agrees sender_settle_mode_agrees receiver_settle_mode_agrees sasl_code_agrees terminus_durability_agrees
  terminus_expiry_policy_agrees amqp_error_agrees connection_error_agrees session_error_agrees link_error_agrees message_id_agrees
  error_condition_agrees distribution_mode_agrees : agree.
#[export] Hint Extern 1 (agrees_S _ (plain_Q Z.eqb)) => apply z_agrees; reflexivity : agree.
#[export] Hint Extern 1 (agrees_S _ (plain_Q bytes_eqb)) => apply bytes_agrees; reflexivity : agree.
#[export] Hint Extern 1 (agrees_D (section_D _ _ _ _ _ _) _) => apply section_body_agrees; [auto with agree|reflexivity] : agree.
Ltac all_agree := repeat (apply conj; [cbn [fst snd a_D]; solve [auto with agree]|]); exact I.
Ltac struct_agrees_tac tr eqb K :=
  apply struct_agrees; [exact tr|all_agree|
    intros a b; cbv beta iota delta [eqb columns_eqb k_fields k_to K fst snd]; rewrite ?andb_true_r, ?andb_assoc; reflexivity].
Ltac union_agrees_tac ok :=
  apply union_agrees; [exact ok|all_agree|intros [] []; reflexivity|repeat (apply Forall_cons; [reflexivity|]); apply Forall_nil].
Lemma error_agrees_D : agrees_D (composite_D error_K) error_Q. Proof. struct_agrees_tac error_tr error_eqb error_K. Qed.
Lemma error_agrees : agrees_S error_S error_Q. Proof. exact (struct_agrees_S _ _ error_agrees_D). Qed.
#[export] Hint Resolve error_agrees_D error_agrees : agree.
Lemma received_agrees_D : agrees_D (composite_D received_K) received_Q. Proof. struct_agrees_tac received_tr received_eqb received_K. Qed.
Lemma received_agrees : agrees_S received_S received_Q. Proof. exact (struct_agrees_S _ _ received_agrees_D). Qed.
#[export] Hint Resolve received_agrees_D received_agrees : agree.
Lemma accepted_agrees_D : agrees_D (composite_D accepted_K) accepted_Q. Proof. struct_agrees_tac accepted_tr accepted_eqb accepted_K. Qed.
Lemma accepted_agrees : agrees_S accepted_S accepted_Q. Proof. exact (struct_agrees_S _ _ accepted_agrees_D). Qed.
#[export] Hint Resolve accepted_agrees_D accepted_agrees : agree.
Lemma rejected_agrees_D : agrees_D (composite_D rejected_K) rejected_Q. Proof. struct_agrees_tac rejected_tr rejected_eqb rejected_K. Qed.
Lemma rejected_agrees : agrees_S rejected_S rejected_Q. Proof. exact (struct_agrees_S _ _ rejected_agrees_D). Qed.
#[export] Hint Resolve rejected_agrees_D rejected_agrees : agree.
Lemma released_agrees_D : agrees_D (composite_D released_K) released_Q. Proof. struct_agrees_tac released_tr released_eqb released_K. Qed.
Lemma released_agrees : agrees_S released_S released_Q. Proof. exact (struct_agrees_S _ _ released_agrees_D). Qed.
#[export] Hint Resolve released_agrees_D released_agrees : agree.
Lemma modified_agrees_D : agrees_D (composite_D modified_K) modified_Q. Proof. struct_agrees_tac modified_tr modified_eqb modified_K. Qed.
Lemma modified_agrees : agrees_S modified_S modified_Q. Proof. exact (struct_agrees_S _ _ modified_agrees_D). Qed.
#[export] Hint Resolve modified_agrees_D modified_agrees : agree.
Lemma delivery_state_agrees : agrees_S delivery_state_S delivery_state_Q. Proof. union_agrees_tac delivery_state_alts_ok. Qed.
#[export] Hint Resolve delivery_state_agrees : agree.
Lemma outcome_agrees : agrees_S outcome_S outcome_Q. Proof. union_agrees_tac outcome_alts_ok. Qed.
#[export] Hint Resolve outcome_agrees : agree.
Lemma source_agrees_D : agrees_D (composite_D source_K) source_Q. Proof. struct_agrees_tac source_tr source_eqb source_K. Qed.
Lemma source_agrees : agrees_S source_S source_Q. Proof. exact (struct_agrees_S _ _ source_agrees_D). Qed.
#[export] Hint Resolve source_agrees_D source_agrees : agree.
Lemma target_agrees_D : agrees_D (composite_D target_K) target_Q. Proof. struct_agrees_tac target_tr target_eqb target_K. Qed.
Lemma target_agrees : agrees_S target_S target_Q. Proof. exact (struct_agrees_S _ _ target_agrees_D). Qed.
#[export] Hint Resolve target_agrees_D target_agrees : agree.
Lemma open_agrees_D : agrees_D (composite_D open_K) open_Q. Proof. struct_agrees_tac open_tr open_eqb open_K. Qed.
Lemma open_agrees : agrees_S open_S open_Q. Proof. exact (struct_agrees_S _ _ open_agrees_D). Qed.
#[export] Hint Resolve open_agrees_D open_agrees : agree.
Lemma begin_agrees_D : agrees_D (composite_D begin_K) begin_Q. Proof. struct_agrees_tac begin_tr begin_eqb begin_K. Qed.
Lemma begin_agrees : agrees_S begin_S begin_Q. Proof. exact (struct_agrees_S _ _ begin_agrees_D). Qed.
#[export] Hint Resolve begin_agrees_D begin_agrees : agree.
Lemma attach_agrees_D : agrees_D (composite_D attach_K) attach_Q. Proof. struct_agrees_tac attach_tr attach_eqb attach_K. Qed.
Lemma attach_agrees : agrees_S attach_S attach_Q. Proof. exact (struct_agrees_S _ _ attach_agrees_D). Qed.
#[export] Hint Resolve attach_agrees_D attach_agrees : agree.
Lemma flow_agrees_D : agrees_D (composite_D flow_K) flow_Q. Proof. struct_agrees_tac flow_tr flow_eqb flow_K. Qed.
Lemma flow_agrees : agrees_S flow_S flow_Q. Proof. exact (struct_agrees_S _ _ flow_agrees_D). Qed.
#[export] Hint Resolve flow_agrees_D flow_agrees : agree.
Lemma disposition_agrees_D : agrees_D (composite_D disposition_K) disposition_Q. Proof. struct_agrees_tac disposition_tr disposition_eqb disposition_K. Qed.
Lemma disposition_agrees : agrees_S disposition_S disposition_Q. Proof. exact (struct_agrees_S _ _ disposition_agrees_D). Qed.
#[export] Hint Resolve disposition_agrees_D disposition_agrees : agree.
Lemma detach_agrees_D : agrees_D (composite_D detach_K) detach_Q. Proof. struct_agrees_tac detach_tr detach_eqb detach_K. Qed.
Lemma detach_agrees : agrees_S detach_S detach_Q. Proof. exact (struct_agrees_S _ _ detach_agrees_D). Qed.
#[export] Hint Resolve detach_agrees_D detach_agrees : agree.
Lemma end_agrees_D : agrees_D (composite_D end_K) end_Q. Proof. struct_agrees_tac end_tr end_eqb end_K. Qed.
Lemma end_agrees : agrees_S end_S end_Q. Proof. exact (struct_agrees_S _ _ end_agrees_D). Qed.
#[export] Hint Resolve end_agrees_D end_agrees : agree.
Lemma close_agrees_D : agrees_D (composite_D close_K) close_Q. Proof. struct_agrees_tac close_tr close_eqb close_K. Qed.
Lemma close_agrees : agrees_S close_S close_Q. Proof. exact (struct_agrees_S _ _ close_agrees_D). Qed.
#[export] Hint Resolve close_agrees_D close_agrees : agree.
Lemma sasl_mechanisms_agrees_D : agrees_D (composite_D sasl_mechanisms_K) sasl_mechanisms_Q. Proof. struct_agrees_tac sasl_mechanisms_tr sasl_mechanisms_eqb sasl_mechanisms_K. Qed.
Lemma sasl_mechanisms_agrees : agrees_S sasl_mechanisms_S sasl_mechanisms_Q. Proof. exact (struct_agrees_S _ _ sasl_mechanisms_agrees_D). Qed.
#[export] Hint Resolve sasl_mechanisms_agrees_D sasl_mechanisms_agrees : agree.
Lemma sasl_init_agrees_D : agrees_D (composite_D sasl_init_K) sasl_init_Q. Proof. struct_agrees_tac sasl_init_tr sasl_init_eqb sasl_init_K. Qed.
Lemma sasl_init_agrees : agrees_S sasl_init_S sasl_init_Q. Proof. exact (struct_agrees_S _ _ sasl_init_agrees_D). Qed.
#[export] Hint Resolve sasl_init_agrees_D sasl_init_agrees : agree.
Lemma sasl_challenge_agrees_D : agrees_D (composite_D sasl_challenge_K) sasl_challenge_Q. Proof. struct_agrees_tac sasl_challenge_tr sasl_challenge_eqb sasl_challenge_K. Qed.
Lemma sasl_challenge_agrees : agrees_S sasl_challenge_S sasl_challenge_Q. Proof. exact (struct_agrees_S _ _ sasl_challenge_agrees_D). Qed.
#[export] Hint Resolve sasl_challenge_agrees_D sasl_challenge_agrees : agree.
Lemma sasl_response_agrees_D : agrees_D (composite_D sasl_response_K) sasl_response_Q. Proof. struct_agrees_tac sasl_response_tr sasl_response_eqb sasl_response_K. Qed.
Lemma sasl_response_agrees : agrees_S sasl_response_S sasl_response_Q. Proof. exact (struct_agrees_S _ _ sasl_response_agrees_D). Qed.
#[export] Hint Resolve sasl_response_agrees_D sasl_response_agrees : agree.
Lemma sasl_outcome_agrees_D : agrees_D (composite_D sasl_outcome_K) sasl_outcome_Q. Proof. struct_agrees_tac sasl_outcome_tr sasl_outcome_eqb sasl_outcome_K. Qed.
Lemma sasl_outcome_agrees : agrees_S sasl_outcome_S sasl_outcome_Q. Proof. exact (struct_agrees_S _ _ sasl_outcome_agrees_D). Qed.
#[export] Hint Resolve sasl_outcome_agrees_D sasl_outcome_agrees : agree.
Lemma sasl_frame_body_agrees : agrees_S sasl_frame_body_S sasl_frame_body_Q. Proof. union_agrees_tac sasl_frame_body_alts_ok. Qed.
#[export] Hint Resolve sasl_frame_body_agrees : agree.
Lemma header_agrees_D : agrees_D (composite_D header_K) header_Q. Proof. struct_agrees_tac header_tr header_eqb header_K. Qed.
Lemma header_agrees : agrees_S header_S header_Q. Proof. exact (struct_agrees_S _ _ header_agrees_D). Qed.
#[export] Hint Resolve header_agrees_D header_agrees : agree.
Lemma properties_agrees_D : agrees_D (composite_D properties_K) properties_Q. Proof. struct_agrees_tac properties_tr properties_eqb properties_K. Qed.
Lemma properties_agrees : agrees_S properties_S properties_Q. Proof. exact (struct_agrees_S _ _ properties_agrees_D). Qed.
#[export] Hint Resolve properties_agrees_D properties_agrees : agree.
Lemma section_eqb_choices v w : section_eqb v w = choices_eqb section_alts
  (header_Q, (fields_Q, (fields_Q, (fields_Q, (plain_Q bytes_eqb, (vec_Q variant_Q, (variant_Q, (fields_Q, (properties_Q, tt))))))))) v w.
Proof. destruct v, w; reflexivity. Qed.
Lemma section_sizes : Forall (fun a => forall x, e_size (c_E section_C) (a_inj a x) = e_size (d_E (a_D a)) x) section_alts.
Proof.
  unfold section_alts. repeat (apply Forall_cons;
    [intros x; lazy [section_C c_E e_size e_enc section_size section_enc a_inj a_D d_E composite_D section_D k_codec header_K
       properties_K header_C properties_C]; reflexivity|]); apply Forall_nil.
Qed.
Lemma section_agrees : agrees_S section_S section_Q.
Proof.
  apply union_agrees.
  - exact section_alts_ok.
  - all_agree.
  - exact section_eqb_choices.
  - exact section_sizes.
Qed.
#[export] Hint Resolve section_agrees : agree.

Lemma compared_agrees {T} (S : tspec T) Q : compared S Q -> agrees_S S Q.
Proof. destruct 1; auto with agree. Qed.
Ltac is_composite K := apply (ty_composite K); unfold all_composites; repeat (first [left; reflexivity|right]).
Lemma compared_type {T} (S : tspec T) Q : compared S Q -> amqp_type S.
Proof.
  destruct 1; try (now constructor).
  - is_composite error_K.
  - is_composite received_K.
  - is_composite accepted_K.
  - is_composite rejected_K.
  - is_composite released_K.
  - is_composite modified_K.
  - is_composite source_K.
  - is_composite target_K.
  - is_composite open_K.
  - is_composite begin_K.
  - is_composite attach_K.
  - is_composite flow_K.
  - is_composite disposition_K.
  - is_composite detach_K.
  - is_composite end_K.
  - is_composite close_K.
  - is_composite sasl_mechanisms_K.
  - is_composite sasl_init_K.
  - is_composite sasl_challenge_K.
  - is_composite sasl_response_K.
  - is_composite sasl_outcome_K.
  - is_composite header_K.
  - is_composite properties_K.
  - apply ty_map; [apply ty_symbol|apply ty_variant].
  - apply ty_map; [apply ty_symbol|apply ty_option; [apply ty_string|cbn; intuition discriminate]].
  - apply ty_map; apply ty_variant.
  - apply ty_map; [apply ty_str|apply ty_variant].
  - apply ty_multiple; [apply el_symbol|cbn; intuition discriminate..].
Qed.

(** ** Messages

    What is shown of one value [a] against all others; for the induction on nested messages. *)
Definition eq_at {T X} (valid : T -> Prop) (size : T -> X) (eqb : T -> T -> bool) (same : T -> T -> Prop) (a : T) : Prop :=
  valid a -> eqb a a = true /\ forall b, valid b -> (eqb a b = true <-> same a b) /\ (eqb a b = true -> eqb b a = true) /\ (eqb a b = true -> size a = size b) /\
    forall c, valid c -> eqb a b = true -> eqb b c = true -> eqb a c = true.
Lemma eq_at_of {T} v s c d (Q : equality T) : agrees v s c d Q -> forall a, eq_at v s (q_eqb Q) (q_same Q) a.
Proof.
  intros [a1 a2 a3 a4 a5 a6 a7 a8 a9] a Ha. split; [auto|]. intros b Hb. split; [auto|]. split; [auto|]. split; [auto|]. intros x Hx. now apply a4.
Qed.
Lemma eq_at_plain {T} (v : T -> Prop) (eqb : T -> T -> bool) : (forall a b, eqb a b = true <-> a = b) -> forall a, eq_at v (fun x => x) eqb eq a.
Proof.
  intros H a _. split; [now apply H|]. intros b _. rewrite !H. split; [easy|]. split; [easy|]. split; [easy|]. intros c _. rewrite !H. congruence.
Qed.
Lemma eq_at_opt {T X} v (s : T -> X) e m o : opt_prop (eq_at v s e m) o -> eq_at (opt_prop v) (option_map s) (opt_eqb e) (opt_rel m) o.
Proof.
  destruct o as [a|]; cbn [opt_prop]; intros H Ha.
  - destruct (H Ha) as [H1 H2]. split; [exact H1|]. intros [b|] Hb; cbn [opt_prop opt_eqb opt_rel option_map] in *; [|easy].
    destruct (H2 b Hb) as (K1 & K2 & K3 & K4). split; [exact K1|]. split; [exact K2|]. split; [intros E; f_equal; auto|]. intros [c|] Hc; cbn [opt_prop opt_eqb] in *; [auto|easy].
  - split; [reflexivity|]. intros [b|] _; cbn; [easy|]. repeat (split; [easy|]). intros c _. easy.
Qed.
Lemma eq_at_vec {T X} v (s : T -> X) e m l : Forall (eq_at v s e m) l -> eq_at (Forall v) (map s) (vec_eqb e) (Forall2 m) l.
Proof.
  induction 1 as [|a l Ha _ IH]; intros Hv.
  - split; [reflexivity|]. intros [|b l'] _; cbn [vec_eqb]; [|split; [split; [easy|inversion 1]|easy]]. repeat (split; [easy|]). intros c _. easy.
  - inversion Hv as [|? ? Hva Hvl]; subst. destruct (Ha Hva) as [H1 H2]. destruct (IH Hvl) as [I1 I2]. split; [cbn [vec_eqb]; now rewrite H1, I1|].
    intros [|b l'] Hb; cbn [vec_eqb map]; [split; [split; [easy|inversion 1]|easy]|].
    inversion Hb as [|? ? Hvb Hvl']; subst. destruct (H2 b Hvb) as (K1 & K2 & K3 & K4). destruct (I2 l' Hvl') as (J1 & J2 & J3 & J4).
    rewrite !andb_true_iff. split; [|split; [|split]].
    + rewrite K1, J1. split; [intros []; now constructor|]. now inversion 1.
    + intros []. auto.
    + intros []. f_equal; auto.
    + intros [|c lc] Hc; cbn [vec_eqb]; [easy|]. rewrite !andb_true_iff. inversion Hc; subst. intros [] []. auto.
Qed.
Lemma eq_at_proj {T U X} (f : T -> U) v (s : U -> X) e m a : eq_at v s e m (f a) ->
  eq_at (fun x => v (f x)) (fun x => s (f x)) (fun x y => e (f x) (f y)) (fun x y => m (f x) (f y)) a.
Proof.
  intros H Ha. destruct (H Ha) as [H1 H2]. split; [exact H1|]. intros b Hb. destruct (H2 _ Hb) as (K1 & K2 & K3 & K4). repeat (split; [assumption|]).
  intros c Hc. now apply K4.
Qed.
Lemma eq_at_both {T X Y} v1 (s1 : T -> X) e1 m1 v2 (s2 : T -> Y) e2 m2 a : eq_at v1 s1 e1 m1 a -> eq_at v2 s2 e2 m2 a ->
  eq_at (fun x => v1 x /\ v2 x) (fun x => (s1 x, s2 x)) (fun x y => e1 x y && e2 x y) (fun x y => m1 x y /\ m2 x y) a.
Proof.
  intros H K [V1 V2]. destruct (H V1) as [H1 H2], (K V2) as [K1 K2]. split; [now rewrite H1, K1|].
  intros b [W1 W2]. destruct (H2 _ W1) as (P1 & P2 & P3 & P4), (K2 _ W2) as (Q1 & Q2 & Q3 & Q4). rewrite !andb_true_iff.
  split; [now rewrite P1, Q1|]. split; [intros []; auto|]. split; [intros []; f_equal; auto|]. intros c [X1 X2]. rewrite !andb_true_iff. intros [] []. auto.
Qed.
Lemma eq_at_ext {T X Y} v (s : T -> X) e m (v' : T -> Prop) (s' : T -> Y) e' m' (f : X -> Y) a : eq_at v s e m a -> (forall x, v' x -> v x) -> (forall x, s' x = f (s x)) ->
  (forall x y, e' x y = e x y) -> (forall x y, m' x y <-> m x y) -> eq_at v' s' e' m' a.
Proof.
  intros H HV HS HE HM Ha. destruct (H (HV _ Ha)) as [H1 H2]. split; [now rewrite HE|]. intros b Hb. destruct (H2 _ (HV _ Hb)) as (K1 & K2 & K3 & K4).
  rewrite !HE, HM, !HS. split; [exact K1|]. split; [exact K2|]. split; [intros E; f_equal; auto|]. intros c Hc. rewrite !HE. auto.
Qed.

Definition app_size (m : list (str * variant)) : Z := e_size (c_E string_variant_map_C) m.
Lemma in_properties_at a : eq_at (s_valid string_variant_map_S) app_size (map_eqb str_eqb variant_eqb) same_in_properties a.
Proof. exact (eq_at_of _ _ _ _ _ string_variant_map_agrees a). Qed.
Lemma out_properties_at a : eq_at entries_valid app_size (vec_eqb (pair_eqb str_eqb variant_eqb)) same_out_properties a.
Proof.
  assert (A : agrees entries_valid app_size (map (fun x => (canon_str (fst x), canon (snd x)))) (Forall (both always decodable)) (vec_Q (pair_Q text_Q variant_Q))).
  { apply (vec_agrees _ (fun kv => str_size (fst kv) + variant_size (snd kv))).
    - apply (pair_agrees _ _ _ _ _ _ _ _ _ _ _ str_agrees variant_agrees). reflexivity.
    - intros l m H. apply map_size_Forall2. eapply Forall2_weaken; [|exact H]. intros [k v] [k' v'] ([? ?] & [? ?] & E). cbn [fst snd] in *.
      apply andb_true_iff in E as [E1 E2]. cbn [fst snd q_eqb text_Q variant_Q] in *. split; [now apply (ag_size _ _ _ _ _ str_agrees)|now apply (ag_size _ _ _ _ _ variant_agrees)]. }
  exact (eq_at_of _ _ _ _ _ A a).
Qed.
Lemma fields_at a : eq_at (s_valid fields_S) (e_size (c_E fields_C)) (map_eqb str_eqb variant_eqb) (q_same fields_Q) a.
Proof. exact (eq_at_of _ _ _ _ _ fields_agrees a). Qed.
Lemma header_at a : eq_at (s_valid header_S) header_size header_eqb (q_same header_Q) a.
Proof. exact (eq_at_of _ _ _ _ _ header_agrees a). Qed.
Lemma properties_at a : eq_at (s_valid properties_S) properties_size properties_eqb (q_same properties_Q) a.
Proof.
  assert (E : s_size properties_S = properties_size).
  { lazy [s_size properties_S composite_S described_S s_codec k_codec properties_K c_E properties_C e_size]. reflexivity. }
  rewrite <- E. exact (eq_at_of _ _ _ _ _ properties_agrees a).
Qed.
Lemma list_at a : eq_at (Forall variant_ok) (list_size variant_size) (vec_eqb variant_eqb) (Forall2 same_value) a.
Proof. exact (eq_at_of _ _ _ _ _ list_agrees a). Qed.
Lemma variant_at a : eq_at variant_ok variant_size variant_eqb same_value a.
Proof. exact (eq_at_of _ _ _ _ _ variant_agrees a). Qed.
Lemma opt_at {T X} v (s : T -> X) e m : (forall a, eq_at v s e m a) -> forall o, eq_at (opt_prop v) (option_map s) (opt_eqb e) (opt_rel m) o.
Proof. intros H o. apply eq_at_opt. destruct o; [apply H|exact I]. Qed.
Lemma opt_eqb_eq {T} (e : T -> T -> bool) : (forall a b, e a b = true <-> a = b) -> forall a b, opt_eqb e a b = true <-> a = b.
Proof. intros H [a|] [b|]; cbn [opt_eqb]; try easy. rewrite H. split; congruence. Qed.
Lemma vec_eqb_eq {T} (e : T -> T -> bool) : (forall a b, e a b = true <-> a = b) -> forall a b, vec_eqb e a b = true <-> a = b.
Proof.
  intros H. induction a as [|x a IH]; intros [|y b]; cbn [vec_eqb]; try easy. rewrite andb_true_iff, H, IH. split; [intros []; congruence|]. intros E. now injection E.
Qed.
Definition some_size (o : option Z) : Z := match o with Some x => x | None => 0 end.
Definition prefixed_size (o : option Z) : Z := match o with Some x => x + SECTION_PREFIX_LENGTH | None => 0 end.
Lemma opt_add_some {T} (f : T -> Z) o : opt_add f o = some_size (option_map f o).
Proof. now destruct o. Qed.
Lemma opt_add_prefixed {T} (f : T -> Z) o : opt_add (fun x => f x + SECTION_PREFIX_LENGTH) o = prefixed_size (option_map f o).
Proof. now destruct o. Qed.
Lemma zsum_of {T X} (g : X -> Z) (f : T -> X) l : zsum (fun x => g (f x)) l = zsum g (map f l).
Proof. induction l as [|x l IH]; [reflexivity|]. unfold zsum in *. cbn [map fold_right]. now rewrite IH. Qed.
Lemma same_nested_Forall2 {TB} (tb : TB -> TB -> Prop) l m : same_nested tb l m <-> Forall2 tb l m.
Proof.
  revert m. induction l as [|x l IH]; intros [|y m]; cbn [same_nested].
  - split; constructor.
  - split; [easy|inversion 1].
  - split; [easy|inversion 1].
  - rewrite IH. split; [intros []; now constructor|]. now inversion 1.
Qed.

Section MessageAt.
  Context (appv : list (str * variant) -> Prop) (appe : list (str * variant) -> list (str * variant) -> bool) (apps : list (str * variant) -> list (str * variant) -> Prop).
  Context (HA : forall a, eq_at appv app_size appe apps a).
  Let valid (m : message) : Prop := message_valid m /\ opt_prop appv (m_application_properties m) /\ all_prop body_hashed (mb_messages (m_body m)).
  Lemma message_at m : Forall (eq_at carried_valid transfer_body_size transfer_body_eqb same_body) (mb_messages (m_body m)) ->
    eq_at valid message_size (message_eqb_ transfer_body_eqb appe) (same_message_ apps same_body) m.
  Proof.
    intros HN.
    pose proof (eq_at_proj m_message_format always (fun x => x) _ _ m (eq_at_plain _ _ (opt_eqb_eq _ Z.eqb_eq) _)) as H1.
    pose proof (eq_at_proj m_header _ _ _ _ m (opt_at _ _ _ _ header_at _)) as H2.
    pose proof (eq_at_proj m_delivery_annotations _ _ _ _ m (opt_at _ _ _ _ fields_at _)) as H3.
    pose proof (eq_at_proj m_message_annotations _ _ _ _ m (opt_at _ _ _ _ fields_at _)) as H4.
    pose proof (eq_at_proj m_properties _ _ _ _ m (opt_at _ _ _ _ properties_at _)) as H5.
    pose proof (eq_at_proj m_application_properties _ _ _ _ m (opt_at _ _ _ _ HA _)) as H6.
    pose proof (eq_at_proj m_footer _ _ _ _ m (opt_at _ _ _ _ fields_at _)) as H7.
    pose proof (eq_at_proj (fun m : message => mb_data (m_body m)) always (fun x => x) _ _ m (eq_at_plain _ _ (vec_eqb_eq _ bytes_eqb_eq) _)) as H8.
    pose proof (eq_at_proj (fun m : message => mb_sequence (m_body m)) _ _ _ _ m (eq_at_vec _ _ _ _ _ (proj2 (Forall_forall _ _) (fun x _ => list_at x)))) as H9.
    pose proof (eq_at_proj (fun m : message => mb_messages (m_body m)) _ _ _ _ m (eq_at_vec _ _ _ _ _ HN)) as H10.
    pose proof (eq_at_proj (fun m : message => mb_value (m_body m)) _ _ _ _ m (opt_at _ _ _ _ variant_at _)) as H11.
    pose proof (eq_at_proj m_size always (fun x => x) _ _ m (eq_at_plain _ _ Z.eqb_eq _)) as H12.
    pose proof (eq_at_both _ _ _ _ _ _ _ _ _ H1 (eq_at_both _ _ _ _ _ _ _ _ _ H2 (eq_at_both _ _ _ _ _ _ _ _ _ H3 (eq_at_both _ _ _ _ _ _ _ _ _ H4
      (eq_at_both _ _ _ _ _ _ _ _ _ H5 (eq_at_both _ _ _ _ _ _ _ _ _ H6 (eq_at_both _ _ _ _ _ _ _ _ _ H7 (eq_at_both _ _ _ _ _ _ _ _ _ H8
      (eq_at_both _ _ _ _ _ _ _ _ _ H9 (eq_at_both _ _ _ _ _ _ _ _ _ H10 (eq_at_both _ _ _ _ _ _ _ _ _ H11 H12))))))))))) as H.
    eapply (eq_at_ext _ _ _ _ _ _ _ _
      (fun '(_, (h, (da, (ma, (p, (ap, (f, (d, (q, (n, (v, s))))))))))) =>
         let body := zsum (fun x : bytes => bin_size x + SECTION_PREFIX_LENGTH) d + zsum (fun x => x + SECTION_PREFIX_LENGTH) q +
                     zsum (fun x => x + (if 255 <? x then 5 else 2) + SECTION_PREFIX_LENGTH) n in
         let body := match v with Some x => body + x + SECTION_PREFIX_LENGTH | None => body end in
         if negb (s =? 0) then s
         else (if body =? 0 then SECTION_PREFIX_LENGTH + 2 else body) + prefixed_size h + prefixed_size da + prefixed_size ma
              + some_size p + prefixed_size ap + prefixed_size f)); [exact H|..]; clear.
    - intros x [(V1 & V2 & V3 & V4 & V5 & V6 & V7 & V8 & V9 & V10) [V11 V12]]. rewrite all_prop_Forall in *. unfold carried_valid.
      repeat (split; [first [exact I|assumption]|]). split; [|now split]. rewrite Forall_forall in *. auto.
    - intros [fmt h da ma p ap f [d q n v] s]. unfold message_size, message_size_, message_fresh_size_, body_size_.
      cbn [m_header m_delivery_annotations m_message_annotations m_properties m_application_properties m_footer m_body m_size mb_data mb_sequence mb_messages mb_value].
      rewrite !opt_add_prefixed, opt_add_some. rewrite (zsum_of (fun x => x + SECTION_PREFIX_LENGTH) (list_size variant_size)).
      rewrite (zsum_of (fun x => x + (if 255 <? x then 5 else 2) + SECTION_PREFIX_LENGTH) transfer_body_size). destruct v; reflexivity.
    - intros x y. unfold message_eqb_, message_body_eqb_. rewrite !andb_assoc. reflexivity.
    - intros x y. unfold same_message_. rewrite same_nested_Forall2. cbn beta. tauto.
  Qed.
End MessageAt.
Lemma entries_hash m : entries_valid m -> distinct_keys str_eqb m -> s_valid string_variant_map_S m.
Proof. intros H D. split; [|exact D]. eapply Forall_impl; [|exact H]. intros [k v] []. repeat split; assumption. Qed.
Lemma carried_at t : eq_at carried_valid transfer_body_size transfer_body_eqb same_body t.
Proof.
  assert (P : forall o, opt_prop entries_valid o -> opt_prop (distinct_keys str_eqb) o -> opt_prop (s_valid string_variant_map_S) o).
  { intros [o|]; cbn [opt_prop]; [apply entries_hash|easy]. }
  induction t as [b|m IH|m IH] using transfer_body_nested; intros Ha.
  - split; [now apply bytes_eqb_eq|]. intros [b'|m'|m'] _; cbn [transfer_body_eqb same_body transfer_body_size]; try easy. rewrite !bytes_eqb_eq.
    split; [easy|]. split; [easy|]. split; [congruence|]. intros [c|c|c] _; cbn [transfer_body_eqb]; try easy. rewrite !bytes_eqb_eq. congruence.
  - pose proof (message_at _ _ _ in_properties_at m IH) as [H1 H2].
    { destruct Ha as [Ha1 Ha2]. cbn [body_valid body_hashed] in *. split; [exact Ha1|]. split; [|apply Ha2]. apply P; [apply Ha1|apply Ha2]. }
    split; [exact H1|]. intros [b'|m'|m'] Hb; cbn [transfer_body_eqb same_body transfer_body_size]; try easy.
    destruct (H2 m') as (K1 & K2 & K3 & K4).
    { destruct Hb as [Hb1 Hb2]. cbn [body_valid body_hashed] in *. split; [exact Hb1|]. split; [|apply Hb2]. apply P; [apply Hb1|apply Hb2]. }
    split; [exact K1|]. split; [exact K2|]. split; [exact K3|]. intros [c|c|c] Hc; cbn [transfer_body_eqb]; try easy. apply K4.
    destruct Hc as [Hc1 Hc2]. cbn [body_valid body_hashed] in *. split; [exact Hc1|]. split; [|apply Hc2]. apply P; [apply Hc1|apply Hc2].
  - assert (V : forall x, carried_valid (TBMessageOut x) ->
      message_valid x /\ opt_prop entries_valid (m_application_properties x) /\ all_prop body_hashed (mb_messages (m_body x))).
    { intros x [X1 X2]. split; [exact X1|]. split; [apply X1|exact X2]. }
    pose proof (message_at _ _ _ out_properties_at m IH (V _ Ha)) as [H1 H2].
    split; [exact H1|]. intros [b'|m'|m'] Hb; cbn [transfer_body_eqb same_body transfer_body_size]; try easy.
    destruct (H2 m' (V _ Hb)) as (K1 & K2 & K3 & K4).
    split; [exact K1|]. split; [exact K2|]. split; [exact K3|]. intros [c|c|c] Hc; cbn [transfer_body_eqb]; try easy. apply K4. exact (V _ Hc).
Qed.
