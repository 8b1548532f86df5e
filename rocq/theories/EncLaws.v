(** Laws shared by the encoders: the announced size is the number of bytes written, at least one byte is written, and
    everything written is a byte. *)

From Verif Require Import Decode BaseFacts Utf8Spec Utf8Facts Valid Wire PrimFacts.
From Coq Require Import ZifyBool.
Ltac Zify.zify_post_hook ::= Z.div_mod_to_equations.

Definition enc_fits (size : Z) (ops : list wop) : Prop :=
  zlen (wbytes ops) = size /\ bytes_ok (wbytes ops).
Definition enc_lawful {T} (ok : T -> Prop) (E : enc T) : Prop :=
  forall v, ok v -> enc_fits (e_size E v) (e_enc E v) /\ 1 <= e_size E v.
Definition aenc_lawful {T} (ok : T -> Prop) (A : aenc T) : Prop :=
  forall v, ok v -> enc_fits (a_size A v) (a_enc A v) /\ 0 <= a_size A v.

Lemma fits_nil : enc_fits 0 [].
Proof. split; [reflexivity|constructor]. Qed.
Lemma fits_app a b x y : enc_fits a x -> enc_fits b y -> enc_fits (a + b) (x ++ y).
Proof.
  intros [H1 H2] [H3 H4]. split; rewrite wbytes_app; [now rewrite zlen_app, H1, H3|now apply bytes_ok_app].
Qed.
Lemma fits_eq a b x : a = b -> enc_fits a x -> enc_fits b x.
Proof. now intros ->. Qed.
Lemma fits_put l : bytes_ok l -> enc_fits (zlen l) [Put l].
Proof. intros H. split; wb; easy. Qed.
Lemma fits_ext l : bytes_ok l -> enc_fits (zlen l) [Ext l].
Proof. intros H. split; wb; easy. Qed.
Lemma fits_u8 v : enc_fits 1 [put_u8 v].
Proof.
  split; wb; [reflexivity|]. constructor; [|constructor]. unfold byte_ok. lia.
Qed.
Lemma fits_u16 v : enc_fits 2 [put_u16_be v].
Proof. split; wb; [reflexivity|apply be2_ok]. Qed.
Lemma fits_u32 v : enc_fits 4 [put_u32_be v].
Proof. split; wb; [reflexivity|apply be4_ok]. Qed.
Lemma fits_u64 v : enc_fits 8 [put_u64_be v].
Proof. split; wb; [reflexivity|apply be8_ok]. Qed.
Lemma fits_cons a b o x : enc_fits a [o] -> enc_fits b x -> enc_fits (a + b) (o :: x).
Proof. intros H1 H2. exact (fits_app a b [o] x H1 H2). Qed.
Lemma fits_cons_u8 a v x : enc_fits a x -> enc_fits (1 + a) (put_u8 v :: x).
Proof. intros. apply fits_cons; [apply fits_u8|easy]. Qed.
Lemma fits_flat_map {A} (size : A -> Z) (f : A -> list wop) l :
  Forall (fun x => enc_fits (size x) (f x)) l -> enc_fits (zsum size l) (flat_map f l).
Proof.
  induction 1 as [|x l Hx Hl IH]; cbn [zsum flat_map]; [apply fits_nil|now apply fits_app].
Qed.

Create HintDb fits.
#[global] Hint Resolve fits_nil fits_u8 fits_u16 fits_u32 fits_u64 fits_cons_u8 fits_put fits_ext : fits.

Lemma fixed_lawful {T} (ok : T -> Prop) (A : aenc T) : aenc_lawful ok A -> enc_lawful ok (fixed A).
Proof.
  intros H v Hv. destruct (H v Hv) as [H1 H2]. unfold fixed, fixed_size, fixed_enc. cbn [e_size e_enc]. split; [|lia].
  rewrite Z.add_comm. now apply fits_cons_u8.
Qed.
Definition any {T} (_ : T) : Prop := True.
Lemma bool_el : enc_lawful any bool_E.
Proof. intros v _. cbn. split; [|unfold bool_size; lia]. apply fits_u8. Qed.
Lemma bool_al : aenc_lawful any bool_A.
Proof. intros v _. cbn. split; [|lia]. apply fits_u8. Qed.
Lemma u8_al : aenc_lawful any u8_A. Proof. intros v _. cbn. split; [apply fits_u8|lia]. Qed.
Lemma u16_al : aenc_lawful any u16_A. Proof. intros v _. cbn. split; [apply fits_u16|lia]. Qed.
Lemma u32_al : aenc_lawful any u32_A. Proof. intros v _. cbn. split; [apply fits_u32|lia]. Qed.
Lemma u64_al : aenc_lawful any u64_A. Proof. intros v _. cbn. split; [apply fits_u64|lia]. Qed.
Lemma i8_al : aenc_lawful any i8_A. Proof. intros v _. cbn. split; [apply fits_u8|lia]. Qed.
Lemma i16_al : aenc_lawful any i16_A. Proof. intros v _. cbn. split; [apply fits_u16|lia]. Qed.
Lemma i32_al : aenc_lawful any i32_A. Proof. intros v _. cbn. split; [apply fits_u32|lia]. Qed.
Lemma i64_al : aenc_lawful any i64_A. Proof. intros v _. cbn. split; [apply fits_u64|lia]. Qed.
Lemma f32_al : aenc_lawful any f32_A. Proof. intros v _. cbn. split; [apply fits_u32|lia]. Qed.
Lemma f64_al : aenc_lawful any f64_A. Proof. intros v _. cbn. split; [apply fits_u64|lia]. Qed.
Lemma char_al : aenc_lawful any char_A. Proof. intros v _. cbn. split; [apply fits_u32|lia]. Qed.
Lemma datetime_al : aenc_lawful any datetime_A. Proof. intros v _. cbn. split; [apply fits_u64|lia]. Qed.
Lemma uuid_al : aenc_lawful uuid_ok uuid_A.
Proof. intros v [H1 H2]. cbn. split; [|lia]. rewrite <- H2. now apply fits_ext. Qed.
Lemma u8_el : enc_lawful any u8_E. Proof. apply fixed_lawful, u8_al. Qed.
Lemma u16_el : enc_lawful any u16_E. Proof. apply fixed_lawful, u16_al. Qed.
Lemma i8_el : enc_lawful any i8_E. Proof. apply fixed_lawful, i8_al. Qed.
Lemma i16_el : enc_lawful any i16_E. Proof. apply fixed_lawful, i16_al. Qed.
Lemma f32_el : enc_lawful any f32_E. Proof. apply fixed_lawful, f32_al. Qed.
Lemma f64_el : enc_lawful any f64_E. Proof. apply fixed_lawful, f64_al. Qed.
Lemma char_el : enc_lawful any char_E. Proof. apply fixed_lawful, char_al. Qed.
Lemma datetime_el : enc_lawful any datetime_E. Proof. apply fixed_lawful, datetime_al. Qed.
Lemma uuid_el : enc_lawful uuid_ok uuid_E. Proof. apply fixed_lawful, uuid_al. Qed.
Lemma u32_el : enc_lawful any u32_E.
Proof.
  intros v _. cbn [u32_E e_size e_enc]. unfold u32_size, u32_enc.
  destruct (v =? 0); [split; [apply fits_u8|lia]|]. destruct (255 <? v); (split; [|lia]).
  - apply (fits_cons_u8 4), fits_u32.
  - apply (fits_cons_u8 1), fits_u8.
Qed.
Lemma u64_el : enc_lawful any u64_E.
Proof.
  intros v _. cbn [u64_E e_size e_enc]. unfold u64_size, u64_enc.
  destruct (v =? 0); [split; [apply fits_u8|lia]|]. destruct (255 <? v); (split; [|lia]).
  - apply (fits_cons_u8 8), fits_u64.
  - apply (fits_cons_u8 1), fits_u8.
Qed.
Lemma i32_el : enc_lawful any i32_E.
Proof.
  intros v _. cbn [i32_E e_size e_enc]. unfold i32_size, i32_enc.
  destruct (_ || _); (split; [|lia]).
  - apply (fits_cons_u8 4), fits_u32.
  - apply (fits_cons_u8 1), fits_u8.
Qed.
Lemma i64_el : enc_lawful any i64_E.
Proof.
  intros v _. cbn [i64_E e_size e_enc]. unfold i64_size, i64_enc.
  destruct (_ || _); (split; [|lia]).
  - apply (fits_cons_u8 8), fits_u64.
  - apply (fits_cons_u8 1), fits_u8.
Qed.

Lemma var_fits c8 c32 b : bytes_ok b -> enc_fits (var_size (zlen b)) (var_enc c8 c32 (zlen b) b).
Proof.
  intros H. unfold var_size, var_enc. apply fits_app; [|now apply fits_put].
  destruct (255 <? zlen b).
  - apply (fits_cons_u8 4), fits_u32.
  - apply (fits_cons_u8 1), fits_u8.
Qed.
Lemma var_size_pos n : 0 <= n -> 2 <= var_size n.
Proof. unfold var_size. destruct (255 <? n); lia. Qed.
Lemma bin_el : enc_lawful bytes_ok bin_E.
Proof.
  intros b H. split; [now apply var_fits|]. cbn. unfold bin_size.
  pose proof (var_size_pos _ (zlen_nonneg b)). lia.
Qed.
Lemma bstr_el : enc_lawful text_ok bstr_E.
Proof.
  intros b H. split; [apply var_fits; now apply is_utf8_bytes_ok|]. cbn. unfold bstr_size.
  pose proof (var_size_pos _ (zlen_nonneg b)). lia.
Qed.
Lemma str_ok_bytes s : str_ok s -> bytes_ok (str_bytes s).
Proof. intros H. apply is_utf8_bytes_ok. now apply str_bytes_ok. Qed.
Lemma str_el : enc_lawful str_ok str_E.
Proof.
  intros s H. cbn [str_E e_size e_enc]. unfold str_size, str_enc. rewrite str_len_bytes.
  split; [apply var_fits; now apply str_ok_bytes|]. pose proof (var_size_pos _ (zlen_nonneg (str_bytes s))). lia.
Qed.
Lemma symbol_el : enc_lawful symbol_ok symbol_E.
Proof.
  intros s H. cbn [symbol_E e_size e_enc]. unfold symbol_size, symbol_enc. rewrite str_len_bytes.
  split; [apply var_fits; now apply str_ok_bytes|]. pose proof (var_size_pos _ (zlen_nonneg (str_bytes s))). lia.
Qed.
Lemma static_symbol_el : enc_lawful text_ok static_symbol_E.
Proof.
  intros b H. split; [apply var_fits; now apply is_utf8_bytes_ok|]. cbn. unfold static_symbol_size.
  pose proof (var_size_pos _ (zlen_nonneg b)). lia.
Qed.
Lemma bin_al : aenc_lawful bytes_ok bin_A.
Proof.
  intros b H. cbn [bin_A a_size a_enc]. pose proof (zlen_nonneg b). split; [|lia].
  apply fits_cons; [apply fits_u32|now apply fits_put].
Qed.
Lemma bstr_al : aenc_lawful text_ok bstr_A.
Proof.
  intros b H. cbn [bstr_A a_size a_enc]. pose proof (zlen_nonneg b). split; [|lia].
  apply fits_cons; [apply fits_u32|apply fits_put; now apply is_utf8_bytes_ok].
Qed.
Lemma symbol_al : aenc_lawful symbol_ok symbol_A.
Proof.
  intros s H. cbn [symbol_A a_size a_enc]. rewrite str_len_bytes. pose proof (zlen_nonneg (str_bytes s)). split; [|lia].
  apply fits_cons; [apply fits_u32|apply fits_put; now apply str_ok_bytes].
Qed.

(** ** Compound types *)

Definition entry_ok {K V} (PK : K -> Prop) (PV : V -> Prop) (kv : K * V) : Prop := PK (fst kv) /\ PV (snd kv).

Section Map.
  Context {K V : Type} (sk : K -> Z) (ek : K -> list wop) (sv : V -> Z) (ev : V -> list wop).
  Let fits_entry (kv : K * V) : Prop :=
    enc_fits (sk (fst kv)) (ek (fst kv)) /\ enc_fits (sv (snd kv)) (ev (snd kv)).
  Lemma map_entries_fits m : Forall fits_entry m -> enc_fits (map_encoded_size sk sv m) (map_entries ek ev m).
  Proof.
    intros H. unfold map_encoded_size, map_entries. apply fits_flat_map.
    eapply Forall_impl; [|exact H]. intros [k v] [H1 H2]. now apply fits_app.
  Qed.
  Lemma map_fits m : Forall fits_entry m -> enc_fits (map_size sk sv m) (map_enc sk ek sv ev m).
  Proof.
    intros H. unfold map_size, map_enc. apply fits_app; [|now apply map_entries_fits].
    destruct (255 <? _).
    - apply (fits_cons_u8 8). apply (fits_cons 4 4); apply fits_u32.
    - apply (fits_cons_u8 2). apply (fits_cons_u8 1). apply fits_u8.
  Qed.
  Lemma fits_nonneg s o : enc_fits s o -> 0 <= s.
  Proof. intros [<- _]. apply zlen_nonneg. Qed.
  Lemma map_size_pos m : Forall fits_entry m -> 3 <= map_size sk sv m.
  Proof.
    intros H. apply map_entries_fits, fits_nonneg in H. unfold map_size. destruct (255 <? _); lia.
  Qed.
End Map.

Lemma map_el {K V} (PK : K -> Prop) (PV : V -> Prop) (EK : enc K) (EV : enc V) :
  enc_lawful PK EK -> enc_lawful PV EV -> enc_lawful (Forall (entry_ok PK PV)) (map_E EK EV).
Proof.
  intros HK HV m Hm.
  assert (H : Forall (fun kv => enc_fits (e_size EK (fst kv)) (e_enc EK (fst kv)) /\
                                enc_fits (e_size EV (snd kv)) (e_enc EV (snd kv))) m).
  { eapply Forall_impl; [|exact Hm]. intros [k v] [H1 H2]. split; [now apply HK|now apply HV]. }
  cbn [map_E e_size e_enc]. split; [now apply map_fits|].
  pose proof (map_size_pos _ _ _ _ _ H). lia.
Qed.
Lemma map_al {K V} (PK : K -> Prop) (PV : V -> Prop) (EK : enc K) (EV : enc V) :
  enc_lawful PK EK -> enc_lawful PV EV -> aenc_lawful (Forall (entry_ok PK PV)) (map_A EK EV).
Proof.
  intros HK HV m Hm.
  assert (H : Forall (fun kv => enc_fits (e_size EK (fst kv)) (e_enc EK (fst kv)) /\
                                enc_fits (e_size EV (snd kv)) (e_enc EV (snd kv))) m).
  { eapply Forall_impl; [|exact Hm]. intros [k v] [H1 H2]. split; [now apply HK|now apply HV]. }
  apply map_entries_fits in H. cbn [map_A a_size a_enc]. pose proof (fits_nonneg _ _ H). split; [|lia].
  apply (fits_app 8); [|exact H]. apply (fits_cons 4 4); apply fits_u32.
Qed.

Lemma vec_fits {T} (ok : T -> Prop) (A : aenc T) l : aenc_lawful ok A -> Forall ok l ->
  enc_fits (array_encoded_size A l) (flat_map (a_enc A) l).
Proof. intros H Hl. apply fits_flat_map. eapply Forall_impl; [|exact Hl]. intros x Hx. now apply H. Qed.
Lemma vec_el {T} (ok : T -> Prop) (A : aenc T) : aenc_lawful ok A -> enc_lawful (Forall ok) (vec_E A).
Proof.
  intros H l Hl. pose proof (vec_fits _ _ _ H Hl) as F. pose proof (fits_nonneg _ _ F) as N.
  cbn [vec_E e_size e_enc]. unfold vec_size, vec_enc. split; [|destruct (255 <? _); lia].
  rewrite app_assoc. apply fits_app; [|exact F]. destruct (255 <? _); cbn [app].
  - apply (fits_cons_u8 9). apply (fits_cons 4 5); [apply fits_u32|]. apply (fits_cons 4 1); [apply fits_u32|]. apply fits_u8.
  - apply (fits_cons_u8 3). apply (fits_cons_u8 2). apply (fits_cons_u8 1). apply fits_u8.
Qed.
Lemma multiple_el {T} (ok : T -> Prop) (E : enc T) (A : aenc T) :
  enc_lawful ok E -> aenc_lawful ok A -> enc_lawful (Forall ok) (multiple_E E A).
Proof.
  intros HE HA l Hl. pose proof (vec_el _ _ HA l Hl) as V. cbn [multiple_E e_size e_enc vec_E] in *.
  unfold multiple_size, multiple_enc. destruct l as [|x [|y l]]; try exact V.
  inversion Hl; subst. now apply HE.
Qed.
Lemma list_fits {T} (sv : T -> Z) (ev : T -> list wop) l :
  Forall (fun x => enc_fits (sv x) (ev x)) l -> enc_fits (list_size sv l) (list_enc sv ev l) /\ 3 <= list_size sv l.
Proof.
  intros H. apply fits_flat_map in H. pose proof (fits_nonneg _ _ H) as N. unfold list_size, list_enc, list_encoded_size.
  split; [|destruct (255 <? _); lia]. apply fits_app; [|exact H]. destruct (255 <? _).
  - apply (fits_cons_u8 8). apply (fits_cons 4 4); apply fits_u32.
  - apply (fits_cons_u8 2). apply (fits_cons_u8 1). apply fits_u8.
Qed.
Lemma option_el {T} (ok : T -> Prop) (E : enc T) :
  enc_lawful ok E -> enc_lawful (fun o => match o with Some v => ok v | None => True end) (option_E E).
Proof.
  intros H [v|] Hv; cbn [option_E e_size e_enc option_size option_enc].
  - now apply H.
  - split; [apply fits_u8|lia].
Qed.
Lemma descriptor_el : enc_lawful descriptor_ok descriptor_E.
Proof.
  intros [v|s] H; cbn [descriptor_E e_size e_enc descriptor_size descriptor_enc].
  - destruct (u64_el v I) as [H1 H2]. cbn in H1, H2. split; [now apply fits_cons_u8|lia].
  - destruct (symbol_el s H) as [H1 H2]. cbn in H1, H2. split; [now apply fits_cons_u8|lia].
Qed.

(** ** Variants *)

Section VariantInd.
  Context (P : variant -> Prop).
  Context (Hnull : P VNull) (Hbool : forall b, P (VBoolean b)) (Hub : forall v, P (VUbyte v)) (Hus : forall v, P (VUshort v))
    (Hui : forall v, P (VUint v)) (Hul : forall v, P (VUlong v)) (Hb : forall v, P (VByte v)) (Hs : forall v, P (VShort v))
    (Hi : forall v, P (VInt v)) (Hl : forall v, P (VLong v)) (Hf : forall v, P (VFloat v)) (Hd : forall v, P (VDouble v))
    (Hc : forall v, P (VChar v)) (Ht : forall t, P (VTimestamp t)) (Huu : forall u, P (VUuid u)) (Hbin : forall b, P (VBinary b))
    (Hstr : forall s, P (VString s)) (Hsym : forall s, P (VSymbol s)) (Hss : forall s, P (VStaticSymbol s))
    (Hlist : forall l, Forall P l -> P (VList l))
    (Hmap : forall m, Forall (fun kv => P (fst kv) /\ P (snd kv)) m -> P (VMap m))
    (Hdesc : forall d v, P v -> P (VDescribed d v)).
  Fixpoint variant_ind' (v : variant) : P v :=
    match v with
    | VNull => Hnull | VBoolean b => Hbool b | VUbyte x => Hub x | VUshort x => Hus x | VUint x => Hui x | VUlong x => Hul x
    | VByte x => Hb x | VShort x => Hs x | VInt x => Hi x | VLong x => Hl x | VFloat x => Hf x | VDouble x => Hd x
    | VChar x => Hc x | VTimestamp t => Ht t | VUuid u => Huu u | VBinary b => Hbin b | VString s => Hstr s
    | VSymbol s => Hsym s | VStaticSymbol s => Hss s
    | VList l => Hlist l ((fix go (l : list variant) : Forall P l :=
        match l with [] => Forall_nil _ | x :: r => Forall_cons _ (variant_ind' x) (go r) end) l)
    | VMap m => Hmap m ((fix go (m : list (variant * variant)) : Forall (fun kv => P (fst kv) /\ P (snd kv)) m :=
        match m with
        | [] => Forall_nil _
        | kv :: r => Forall_cons _ (conj (variant_ind' (fst kv)) (variant_ind' (snd kv))) (go r)
        end) m)
    | VDescribed d w => Hdesc d w (variant_ind' w)
    end.
End VariantInd.

Lemma all_prop_Forall {A} (P : A -> Prop) l : all_prop P l <-> Forall P l.
Proof.
  induction l as [|x l IH]; cbn [all_prop]; [split; auto|]. rewrite IH. split.
  - intros [? ?]; auto.
  - intros H; inversion H; auto.
Qed.
Lemma all_prop_pair {A B} (P : A * B -> Prop) (l : list (A * B)) (Q : A -> B -> Prop) :
  (forall a b, P (a, b) <-> Q a b) -> (all_prop P l <-> Forall (fun kv => Q (fst kv) (snd kv)) l).
Proof.
  intros H. rewrite all_prop_Forall. split; intros F; (eapply Forall_impl; [|exact F]); intros [a b]; apply H.
Qed.

Lemma variant_el : enc_lawful variant_ok variant_E.
Proof.
  intros v. cbn [variant_E e_size e_enc].
  induction v using variant_ind'; cbn [variant_ok variant_size variant_enc]; intros Hok.
  - split; [apply fits_u8|lia].
  - now apply (bool_el b).
  - now apply (u8_el v).
  - now apply (u16_el v).
  - now apply (u32_el v).
  - now apply (u64_el v).
  - now apply (i8_el v).
  - now apply (i16_el v).
  - now apply (i32_el v).
  - now apply (i64_el v).
  - now apply (f32_el v).
  - now apply (f64_el v).
  - now apply (char_el v).
  - now apply (datetime_el t).
  - now apply (uuid_el u).
  - now apply (bin_el b).
  - now apply (str_el s).
  - now apply (symbol_el s).
  - now apply (static_symbol_el s).
  - apply all_prop_Forall in Hok.
    assert (F : Forall (fun x => enc_fits (variant_size x) (variant_enc x)) l).
    { rewrite Forall_forall in *. intros x Hx. apply H; auto. }
    apply list_fits in F as [F1 F2]. split; [exact F1|lia].
  - destruct Hok as [Hok _]. apply (all_prop_pair _ _ (fun k w => variant_ok k /\ variant_hashable k = true /\ variant_ok w)) in Hok; [|easy].
    assert (F : Forall (fun kv => enc_fits (variant_size (fst kv)) (variant_enc (fst kv)) /\
                                  enc_fits (variant_size (snd kv)) (variant_enc (snd kv))) m).
    { rewrite Forall_forall in *. intros x Hx. destruct (H x Hx) as [H1 H2]. destruct (Hok x Hx) as (H3 & _ & H4).
      split; [now apply H1|now apply H2]. }
    split; [now apply map_fits|]. apply map_size_pos in F. lia.
  - destruct Hok as [Hd Hv]. destruct (descriptor_el d Hd) as [D1 D2]. cbn [descriptor_E e_size e_enc] in D1, D2.
    destruct (IHv Hv) as [V1 V2]. split; [now apply fits_app|lia].
Qed.
Lemma list_el : enc_lawful (Forall variant_ok) list_E.
Proof.
  intros l Hl. cbn [list_E e_size e_enc].
  assert (F : Forall (fun x => enc_fits (variant_size x) (variant_enc x)) l).
  { eapply Forall_impl; [|exact Hl]. intros x Hx. now apply (variant_el x). }
  apply list_fits in F as [F1 F2]. split; [exact F1|lia].
Qed.
Lemma variant_size_len v : variant_ok v -> zlen (wbytes (variant_enc v)) = variant_size v.
Proof. intros H. now apply (variant_el v). Qed.
Lemma variant_size_pos v : variant_ok v -> 1 <= variant_size v.
Proof. intros H. now apply (variant_el v). Qed.
