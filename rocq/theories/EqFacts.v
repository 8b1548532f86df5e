(** Equality of texts and generic values is an equivalence; lookup in maps respects it. *)

From Verif Require Import Decode BaseFacts Utf8Spec Valid Wire EncLaws CodecSpec.
From Coq Require Import ZifyBool.
Ltac Zify.zify_post_hook ::= Z.div_mod_to_equations.

Lemma str_eqb_spec a b : str_eqb a b = true <-> str_bytes a = str_bytes b.
Proof. destruct a as [a|a], b as [b|b]; cbn [str_eqb str_bytes]; rewrite bytes_eqb_eq; intuition congruence. Qed.
Lemma str_eqb_refl a : str_eqb a a = true. Proof. now apply str_eqb_spec. Qed.
Lemma str_eqb_sym a b : str_eqb a b = str_eqb b a.
Proof.
  destruct (str_eqb b a) eqn:E; [apply str_eqb_spec; apply str_eqb_spec in E; congruence|].
  destruct (str_eqb a b) eqn:E2; [|easy]. apply str_eqb_spec in E2. symmetry in E2. apply str_eqb_spec in E2. congruence.
Qed.
Lemma str_eqb_trans a b c : str_eqb a b = true -> str_eqb b c = true -> str_eqb a c = true.
Proof. rewrite !str_eqb_spec. congruence. Qed.
Lemma str_eq_text_spec s t : str_eq_text s t = true <-> str_bytes s = t.
Proof. destruct s; cbn [str_eq_text str_bytes]; apply bytes_eqb_eq. Qed.

(** ** Normal forms: on values without maps, equality is equality of normal forms *)
Definition norm32 (b : Z) : Z := if f32_is_nan b then 0x7fc00000 else if b mod 2 ^ 31 =? 0 then 0 else b.
Definition norm64 (b : Z) : Z := if f64_is_nan b then 0x7ff8000000000000 else if b mod 2 ^ 63 =? 0 then 0 else b.
Lemma f32_eqb_norm a b : f32_eqb a b = true <-> norm32 a = norm32 b.
Proof.
  unfold f32_eqb, norm32.
  destruct (f32_is_nan a) eqn:Na; destruct (f32_is_nan b) eqn:Nb.
  - easy.
  - split; [easy|]. intros H. exfalso. destruct (_ =? 0); [discriminate|]. subst b. discriminate.
  - split; [easy|]. intros H. exfalso. destruct (_ =? 0); [discriminate|]. subst a. discriminate.
  - destruct (Z.eqb_spec a b) as [->|Hab]; [easy|]. cbn [orb].
    destruct (Z.eqb_spec (a mod 2 ^ 31) 0) as [Ha|Ha]; destruct (Z.eqb_spec (b mod 2 ^ 31) 0) as [Hb|Hb]; cbn [andb]; try easy.
    + split; [easy|]. intros <-. now cbn in Hb.
    + split; [easy|]. intros ->. now cbn in Ha.
Qed.
Lemma f64_eqb_norm a b : f64_eqb a b = true <-> norm64 a = norm64 b.
Proof.
  unfold f64_eqb, norm64.
  destruct (f64_is_nan a) eqn:Na; destruct (f64_is_nan b) eqn:Nb.
  - easy.
  - split; [easy|]. intros H. exfalso. destruct (_ =? 0); [discriminate|]. subst b. discriminate.
  - split; [easy|]. intros H. exfalso. destruct (_ =? 0); [discriminate|]. subst a. discriminate.
  - destruct (Z.eqb_spec a b) as [->|Hab]; [easy|]. cbn [orb].
    destruct (Z.eqb_spec (a mod 2 ^ 63) 0) as [Ha|Ha]; destruct (Z.eqb_spec (b mod 2 ^ 63) 0) as [Hb|Hb]; cbn [andb]; try easy.
    + split; [easy|]. intros <-. now cbn in Hb.
    + split; [easy|]. intros ->. now cbn in Ha.
Qed.
Fixpoint norm (v : variant) : variant :=
  match v with
  | VFloat b => VFloat (norm32 b)
  | VDouble b => VDouble (norm64 b)
  | VString s => VString (SByteStr (str_bytes s))
  | VSymbol s => VSymbol (SByteStr (str_bytes s))
  | VList l => VList (map norm l)
  | VDescribed d w =>
      VDescribed (match d with DUlong x => DUlong x | DSymbol s => DSymbol (SByteStr (str_bytes s)) end) (norm w)
  | _ => v
  end.

Fixpoint list_eqb (l m : list variant) {struct l} : bool :=
  match l, m with
  | [], [] => true
  | x :: l', y :: m' => variant_eqb x y && list_eqb l' m'
  | _, _ => false
  end.
Lemma variant_eqb_list l m : variant_eqb (VList l) (VList m) = list_eqb l m.
Proof. reflexivity. Qed.
Definition found (m : list (variant * variant)) (kv : variant * variant) : bool :=
  match hm_get variant_eqb (fst kv) m with Some v' => variant_eqb (snd kv) v' | None => false end.
Lemma variant_eqb_map l m : variant_eqb (VMap l) (VMap m) = (zlen l =? zlen m) && forallb (found m) l.
Proof.
  cbn [variant_eqb]. f_equal. induction l as [|[k v] l IH]; [reflexivity|]. cbn [forallb]. rewrite IH. f_equal.
  clear IH. unfold found. cbn [fst snd]. induction m as [|[k' v'] m IHm]; [reflexivity|]. cbn [hm_get].
  destruct (variant_eqb k k'); [reflexivity|]. apply IHm.
Qed.

Lemma descriptor_eqb_norm d e : descriptor_eqb d e = true <->
  match d with DUlong x => DUlong x | DSymbol s => DSymbol (SByteStr (str_bytes s)) end =
  match e with DUlong x => DUlong x | DSymbol s => DSymbol (SByteStr (str_bytes s)) end.
Proof.
  destruct d, e; cbn [descriptor_eqb]; try easy.
  - rewrite Z.eqb_eq. intuition congruence.
  - rewrite str_eqb_spec. intuition congruence.
Qed.
Lemma datetime_eqb_eq a b : datetime_eqb a b = true <-> a = b.
Proof.
  unfold datetime_eqb. destruct a as [s n], b as [s' n']. cbn [dt_secs dt_nanos].
  rewrite andb_true_iff, !Z.eqb_eq. split; [intros [-> ->]; easy|]. intros [= -> ->]. easy.
Qed.

Lemma variant_eqb_norm a : variant_hashable a = true -> forall b, variant_eqb a b = true <-> (norm a = norm b /\ variant_hashable b = true).
Proof.
  induction a using variant_ind'; cbn [variant_hashable]; intros Ha c.
  all: try discriminate.
  all: destruct c; cbn [variant_eqb norm variant_hashable];
    try (split; [discriminate|intros [? ?]; discriminate]).
  all: try (rewrite Z.eqb_eq; split; [intros ->; auto|intros [[= ->] _]; auto]; fail).
  all: try (rewrite bytes_eqb_eq; split; [intros ->; auto|intros [[= ->] _]; auto]; fail).
  all: try (rewrite str_eqb_spec; split; [intros ->; auto|intros [[= ->] _]; auto]; fail).
  - easy.
  - rewrite Bool.eqb_true_iff. split; [intros ->; auto|intros [[= ->] _]; auto].
  - rewrite f32_eqb_norm. split; [intros ->; auto|intros [[= ->] _]; auto].
  - rewrite f64_eqb_norm. split; [intros ->; auto|intros [[= ->] _]; auto].
  - rewrite datetime_eqb_eq. split; [intros ->; auto|intros [[= ->] _]; auto].
  - change ((fix list_eqb (l m : list variant) {struct l} : bool :=
       match l, m with
       | [], [] => true
       | x :: l', y :: m' => variant_eqb x y && list_eqb l' m'
       | _, _ => false
       end) l l0) with (list_eqb l l0).
    revert l0. induction l as [|x l IH]; intros [|y m]; cbn [list_eqb map forallb]; try easy.
    inversion H; subst. cbn [forallb] in Ha. apply andb_true_iff in Ha as [Hx Hl]. specialize (IH ltac:(easy) Hl m).
    rewrite !andb_true_iff, IH, H2 by exact Hx. split.
    + intros ((E1 & ?) & (E2 & ?)). injection E2 as E2. split; [congruence|auto].
    + intros ([= E1 E2] & ? & ?). split; [auto|]. split; [congruence|auto].
  - rewrite andb_true_iff, IHa, descriptor_eqb_norm by exact Ha. split.
    + intros (E1 & E2 & E3). split; [congruence|easy].
    + intros ([= E1 E2] & ?). auto.
Qed.

(** ** Maps *)
Definition keys_ok (m : list (variant * variant)) : Prop := Forall (fun kv => variant_hashable (fst kv) = true) m.
Definition nkey (kv : variant * variant) : variant := norm (fst kv).

Lemma eqb_norm a b : variant_hashable a = true -> variant_hashable b = true -> (variant_eqb a b = true <-> norm a = norm b).
Proof. intros Ha Hb. rewrite variant_eqb_norm by exact Ha. easy. Qed.
Lemma hm_get_in {V} k (m : list (variant * V)) v : hm_get variant_eqb k m = Some v -> exists k', In (k', v) m /\ variant_eqb k k' = true.
Proof.
  induction m as [|[k' v'] m IH]; cbn [hm_get]; [discriminate|]. destruct (variant_eqb k k') eqn:E.
  - intros [= ->]. exists k'. split; [now left|easy].
  - intros H. destruct (IH H) as (k2 & H2 & E2). exists k2. split; [now right|easy].
Qed.
Lemma hm_get_congr k k' (m : list (variant * variant)) : variant_hashable k = true -> variant_hashable k' = true -> norm k = norm k' -> keys_ok m ->
  hm_get variant_eqb k m = hm_get variant_eqb k' m.
Proof.
  intros Hk Hk' E. induction 1 as [|[k2 v] m Hx Hm IH]; [reflexivity|]. cbn [hm_get fst] in *.
  assert (variant_eqb k k2 = variant_eqb k' k2) as ->.
  { pose proof (eqb_norm k k2 Hk Hx) as H1. pose proof (eqb_norm k' k2 Hk' Hx) as H2. rewrite E in H1.
    destruct (variant_eqb k k2), (variant_eqb k' k2); intuition. }
  now rewrite IH.
Qed.
Lemma distinct_nodup (m : list (variant * variant)) : keys_ok m -> distinct_keys variant_eqb m -> NoDup (map nkey m).
Proof.
  intros Hk. induction 1 as [|[k v] m Hx Hm IH]; cbn [map]; [constructor|]. inversion Hk; subst. cbn [fst] in *.
  constructor; [|now apply IH]. rewrite in_map_iff. intros ([k' v'] & E & Hin). unfold nkey in E. cbn [fst] in E.
  rewrite Forall_forall in Hx. specialize (Hx _ Hin). cbn [fst] in Hx.
  rewrite (proj2 (eqb_norm k' k ltac:(apply (proj1 (Forall_forall _ _) H2 _ Hin)) H1) E) in Hx. discriminate.
Qed.
Lemma hm_get_of_in m k v : keys_ok m -> NoDup (map nkey m) -> In (k, v) m -> hm_get variant_eqb k m = Some v.
Proof.
  induction m as [|[k' v'] m IH]; intros Hk Hn Hin; [easy|]. inversion Hk; subst. cbn [map] in Hn. inversion Hn; subst. cbn [hm_get fst] in *.
  destruct Hin as [[= -> ->]|Hin].
  - now rewrite (proj2 (eqb_norm k k H1 H1) eq_refl).
  - destruct (variant_eqb k k') eqn:E; [|now apply IH]. exfalso. apply H3. rewrite in_map_iff. exists (k, v). split; [|easy].
    unfold nkey. cbn [fst]. apply (eqb_norm k k'); [apply (proj1 (Forall_forall _ _) H2 _ Hin)|easy|easy].
Qed.

Lemma variant_ok_map m : variant_ok (VMap m) -> Forall (fun kv => variant_ok (fst kv) /\ variant_ok (snd kv)) m /\ keys_ok m /\ distinct_keys variant_eqb m.
Proof.
  cbn [variant_ok]. intros [H D]. apply (all_prop_pair _ _ (fun k w => variant_ok k /\ variant_hashable k = true /\ variant_ok w)) in H; [|easy].
  split; [|split; [|exact D]]; (eapply Forall_impl; [|exact H]); intros kv (? & ? & ?); auto.
Qed.

Theorem variant_eqb_refl v : variant_ok v -> variant_eqb v v = true.
Proof.
  induction v using variant_ind'; intros Hok.
  all: try (now apply variant_eqb_norm).
  - rewrite variant_eqb_list. cbn [variant_ok] in Hok. apply all_prop_Forall in Hok.
    induction l as [|x l IH]; [reflexivity|]. inversion H; inversion Hok; subst. cbn [list_eqb]. rewrite H2 by easy. now apply IH.
  - destruct (variant_ok_map _ Hok) as (HF & HK & HD). rewrite variant_eqb_map, Z.eqb_refl. cbn [andb].
    pose proof (distinct_nodup m HK HD) as HN. apply forallb_forall. intros [k v] Hin. unfold found. cbn [fst snd].
    rewrite (hm_get_of_in m k v) by easy. rewrite Forall_forall in H, HF.
    apply (H _ Hin). apply (HF _ Hin).
  - cbn [variant_ok variant_eqb] in *. destruct Hok as [_ Hok]. rewrite IHv by easy. rewrite andb_true_r. now apply descriptor_eqb_norm.
Qed.

Theorem variant_eqb_sym_true a : variant_ok a -> forall b, variant_ok b -> variant_eqb a b = true -> variant_eqb b a = true.
Proof.
  induction a using variant_ind'; intros Ha c Hc E.
  all: try (apply variant_eqb_norm in E as [E Hh]; [|reflexivity]; apply variant_eqb_norm; [exact Hh|split; [now rewrite E|reflexivity]]).
  - destruct c; try discriminate. rewrite variant_eqb_list in *. cbn [variant_ok] in *. apply all_prop_Forall in Ha, Hc.
    revert l0 Hc E. induction l as [|x l IH]; intros [|y m] Hc E; try discriminate; [reflexivity|]. cbn [list_eqb] in *.
    inversion H; inversion Ha; inversion Hc; subst. apply andb_true_iff in E as [E1 E2]. rewrite H2 by easy. now apply IH.
  - destruct c as [| | | | | | | | | | | | | | | | | | | |m2|]; try discriminate.
    destruct (variant_ok_map _ Ha) as (HF & HK & HD). destruct (variant_ok_map _ Hc) as (HF2 & HK2 & HD2).
    rewrite variant_eqb_map in *. apply andb_true_iff in E as [E1 E2]. rewrite Z.eqb_sym, E1. cbn [andb].
    apply Z.eqb_eq in E1. pose proof (distinct_nodup _ HK HD) as HN. pose proof (distinct_nodup _ HK2 HD2) as HN2.
    rewrite forallb_forall in E2. rewrite Forall_forall in H, HF, HF2. pose proof HK as HK'. pose proof HK2 as HK2'.
    unfold keys_ok in HK', HK2'. rewrite Forall_forall in HK', HK2'.
    assert (Hinc : incl (map nkey m) (map nkey m2)).
    { intros x Hx. apply in_map_iff in Hx as ([k v] & <- & Hin). specialize (E2 _ Hin). unfold found in E2. cbn [fst snd] in E2.
      destruct (hm_get variant_eqb k m2) as [v'|] eqn:G; [|discriminate]. apply hm_get_in in G as (k' & Hin' & Ek).
      apply in_map_iff. exists (k', v'). split; [|easy]. unfold nkey. cbn [fst]. symmetry.
      apply (eqb_norm k k'); [apply (HK' _ Hin)|apply (HK2' _ Hin')|exact Ek]. }
    assert (Hinc2 : incl (map nkey m2) (map nkey m)).
    { apply NoDup_length_incl; [exact HN| |exact Hinc]. rewrite !map_length. unfold zlen in E1. lia. }
    apply forallb_forall. intros [k' v'] Hin'. unfold found. cbn [fst snd].
    assert (Hx : In (norm k') (map nkey m)) by (apply Hinc2, in_map_iff; exists (k', v'); easy).
    apply in_map_iff in Hx as ([k v] & En & Hin). unfold nkey in En. cbn [fst] in En.
    rewrite (hm_get_congr k' k m); [|apply (HK2' _ Hin')|apply (HK' _ Hin)|easy|exact HK].
    rewrite (hm_get_of_in m k v) by easy. specialize (E2 _ Hin). unfold found in E2. cbn [fst snd] in E2.
    rewrite (hm_get_congr k k' m2), (hm_get_of_in m2 k' v') in E2; try easy; [|apply (HK' _ Hin)|apply (HK2' _ Hin')].
    apply (H _ Hin); [apply (HF _ Hin)|apply (HF2 _ Hin')|exact E2].
  - destruct c; try discriminate. cbn [variant_eqb variant_ok] in *. destruct Ha as [_ Ha]. destruct Hc as [_ Hc].
    apply andb_true_iff in E as [E1 E2]. rewrite IHa by easy. rewrite andb_true_r.
    apply descriptor_eqb_norm. symmetry. now apply descriptor_eqb_norm.
Qed.
Theorem variant_eqb_sym a b : variant_ok a -> variant_ok b -> variant_eqb a b = variant_eqb b a.
Proof.
  intros Ha Hb. destruct (variant_eqb a b) eqn:E1, (variant_eqb b a) eqn:E2; try easy.
  - apply variant_eqb_sym_true in E1; auto. congruence.
  - apply variant_eqb_sym_true in E2; auto. congruence.
Qed.

Theorem variant_eqb_trans a : variant_ok a -> forall b c, variant_ok b -> variant_ok c ->
  variant_eqb a b = true -> variant_eqb b c = true -> variant_eqb a c = true.
Proof.
  induction a using variant_ind'; intros Ha b' c Hb Hc E F.
  all: try (apply variant_eqb_norm in E as [E Hh]; [|reflexivity]; apply variant_eqb_norm in F as [F Hh2]; [|exact Hh];
    apply variant_eqb_norm; [reflexivity|split; [congruence|exact Hh2]]).
  - destruct b'; try discriminate. destruct c; try discriminate. rewrite variant_eqb_list in *. cbn [variant_ok] in *.
    apply all_prop_Forall in Ha, Hb, Hc.
    revert l0 l1 Hb Hc E F. induction l as [|x l IH]; intros [|y m] [|z n] Hb Hc E F; try discriminate; [reflexivity|]. cbn [list_eqb] in *.
    inversion H; inversion Ha; inversion Hb; inversion Hc; subst. apply andb_true_iff in E as [E1 E2]. apply andb_true_iff in F as [F1 F2].
    rewrite (H2 ltac:(easy) y z) by easy. now apply (IH ltac:(easy) ltac:(easy) m n).
  - destruct b' as [| | | | | | | | | | | | | | | | | | | |m2|]; try discriminate.
    destruct c as [| | | | | | | | | | | | | | | | | | | |m3|]; try discriminate.
    destruct (variant_ok_map _ Ha) as (HF & HK & HD). destruct (variant_ok_map _ Hb) as (HF2 & HK2 & HD2).
    destruct (variant_ok_map _ Hc) as (HF3 & HK3 & HD3).
    rewrite variant_eqb_map in *. apply andb_true_iff in E as [E1 E2]. apply andb_true_iff in F as [F1 F2].
    apply Z.eqb_eq in E1, F1. rewrite E1, F1, Z.eqb_refl. cbn [andb].
    rewrite forallb_forall in *. rewrite Forall_forall in H, HF, HF2, HF3. pose proof HK as HK'. pose proof HK2 as HK2'.
    unfold keys_ok in HK', HK2'. rewrite Forall_forall in HK', HK2'.
    intros [k v] Hin. specialize (E2 _ Hin). unfold found in *. cbn [fst snd] in *.
    destruct (hm_get variant_eqb k m2) as [v2|] eqn:G; [|discriminate]. apply hm_get_in in G as (k2 & Hin2 & Ek).
    specialize (F2 _ Hin2). cbn [fst snd] in F2.
    rewrite (hm_get_congr k k2 m3); [|apply (HK' _ Hin)|apply (HK2' _ Hin2)| |exact HK3].
    + destruct (hm_get variant_eqb k2 m3) as [v3|] eqn:G3; [|discriminate]. apply hm_get_in in G3 as (k3 & Hin3 & _).
      apply (proj2 (H _ Hin) ltac:(apply (HF _ Hin)) v2 v3); [apply (HF2 _ Hin2)|apply (HF3 _ Hin3)|exact E2|exact F2].
    + apply (eqb_norm k k2); [apply (HK' _ Hin)|apply (HK2' _ Hin2)|exact Ek].
  - destruct b'; try discriminate. destruct c; try discriminate. cbn [variant_eqb variant_ok] in *.
    destruct Ha as [_ Ha]. destruct Hb as [_ Hb]. destruct Hc as [_ Hc].
    apply andb_true_iff in E as [E1 E2]. apply andb_true_iff in F as [F1 F2]. rewrite (IHa Ha b' c) by easy. rewrite andb_true_r.
    apply descriptor_eqb_norm. apply descriptor_eqb_norm in E1, F1. congruence.
Qed.

(** ** The canonical form of a lossless value equals it *)
Lemma instant_millis t : datetime_ok t -> dt_nanos t mod 1000000 = 0 -> dt_nanos t < 1000000000 -> instant (millis t) = t.
Proof. destruct t as [s n]. unfold datetime_ok, instant, millis. cbn [dt_secs dt_nanos]. intros (_ & ?) ? ?. f_equal; lia. Qed.
Lemma canon_norm v : variant_hashable v = true -> variant_ok v -> lossless v -> norm (canon v) = norm v /\ variant_hashable (canon v) = true.
Proof.
  induction v using variant_ind'; cbn [variant_hashable variant_ok lossless canon norm]; intros Hh Hok Hl; try easy.
  - destruct Hl. now rewrite instant_millis.
  - rewrite map_map. apply all_prop_Forall in Hok, Hl.
    enough (map (fun x => norm (canon x)) l = map norm l /\ forallb variant_hashable (map canon l) = true) as [-> ?] by easy.
    induction l as [|x l IH]; [easy|]. inversion H; inversion Hok; inversion Hl; subst. cbn [forallb map] in *. apply andb_true_iff in Hh as [Ph1 Ph2].
    destruct (H2 Ph1) as [-> ->]; auto. destruct IH as [-> ->]; auto.
  - destruct IHv as [-> ->]; try easy. split; [|easy]. f_equal. now destruct d.
Qed.
Lemma hm_get_canon m : keys_ok m -> keys_ok (map (fun kv => (canon (fst kv), canon (snd kv))) m) -> Forall (fun kv => norm (canon (fst kv)) = norm (fst kv)) m ->
  forall k, variant_hashable k = true ->
  hm_get variant_eqb k (map (fun kv => (canon (fst kv), canon (snd kv))) m) = option_map canon (hm_get variant_eqb k m).
Proof.
  intros HK HK2 HN k Hk. induction m as [|[k' v'] m IH]; [reflexivity|]. cbn [map] in HK2. inversion HK; inversion HK2; inversion HN; subst.
  cbn [map hm_get fst snd] in *.
  assert (variant_eqb k (canon k') = variant_eqb k k') as ->.
  { pose proof (eqb_norm k (canon k') Hk H5) as E1. pose proof (eqb_norm k k' Hk H1) as E2. rewrite H9 in E1.
    destruct (variant_eqb k (canon k')), (variant_eqb k k'); intuition. }
  destruct (variant_eqb k k'); [reflexivity|]. now apply IH.
Qed.
Theorem canon_equal v : variant_ok v -> lossless v -> variant_eqb v (canon v) = true.
Proof.
  induction v using variant_ind'; intros Hok Hl.
  all: try (lazymatch goal with |- variant_eqb ?x _ = true =>
    destruct (canon_norm x eq_refl Hok Hl) as [E1 E2]; apply variant_eqb_norm; [reflexivity|]; now split end).
  - cbn [canon]. rewrite variant_eqb_list. cbn [variant_ok lossless] in *. apply all_prop_Forall in Hok, Hl.
    induction l as [|x l IH]; [reflexivity|]. inversion H; inversion Hok; inversion Hl; subst. cbn [list_eqb map].
    rewrite H2 by easy. now apply IH.
  - cbn [canon]. rewrite variant_eqb_map, zlen_map, Z.eqb_refl. cbn [andb].
    destruct (variant_ok_map _ Hok) as (HF & HK & HD). pose proof (distinct_nodup _ HK HD) as HN.
    cbn [lossless] in Hl. apply (all_prop_pair _ _ (fun k w => lossless k /\ lossless w)) in Hl; [|easy].
    assert (map (fun kv : variant * variant => let (k, w) := kv in (canon k, canon w)) m = map (fun kv => (canon (fst kv), canon (snd kv))) m) as ->.
    { apply map_ext. now intros [? ?]. }
    assert (Forall (fun kv => norm (canon (fst kv)) = norm (fst kv) /\ variant_hashable (canon (fst kv)) = true) m) as HC.
    { unfold keys_ok in HK. rewrite Forall_forall in *. intros kv Hin. apply canon_norm; [apply (HK _ Hin)|apply (HF _ Hin)|apply (Hl _ Hin)]. }
    apply forallb_forall. intros [k v] Hin. unfold found. cbn [fst snd].
    rewrite hm_get_canon.
    + rewrite (hm_get_of_in m k v) by easy. cbn [option_map]. rewrite Forall_forall in *. apply (H _ Hin); [apply (HF _ Hin)|apply (Hl _ Hin)].
    + exact HK.
    + unfold keys_ok. rewrite Forall_map. eapply Forall_impl; [|exact HC]. now intros kv [_ ?].
    + eapply Forall_impl; [|exact HC]. now intros kv [? _].
    + unfold keys_ok in HK. rewrite Forall_forall in HK. apply (HK _ Hin).
  - cbn [canon variant_eqb variant_ok lossless] in *. rewrite IHv by easy. rewrite andb_true_r. apply descriptor_eqb_norm. now destruct d.
Qed.
