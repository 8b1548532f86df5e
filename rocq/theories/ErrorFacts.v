(** Facts about the errors of the decoders. *)

From Coq Require Import String.
From Verif Require Import Frames Reserve BaseFacts Utf8Spec Utf8Facts Valid Wire PrimFacts DecLaws EncLaws VariantFacts TypeSpec TypeFacts CompositeSpec
  CompositeFacts AllTypes AllTypesFacts CodecSpec EqFacts CodecFacts MapFacts ValueFacts ExactFacts CompositeReads MessageSpec MessageFacts FrameSpec
  FrameFacts FramingFacts GrammarFacts PanicFacts ReserveSpec ReserveFacts ErrorSpec.
From Coq Require Import ZifyBool.
Open Scope string_scope.
Open Scope list_scope.
Open Scope Z_scope.

(** ** The law of a reader under more input

    [b]: a successful reading stays the same too (not so of a transfer, which takes all there is). *)
Definition lasting {A} (x : res A) : bool :=
  match x with
  | Err (EIncomplete _) | Panic PSlice | Ok _ | Oof => false
  | _ => true
  end.
Record core (b : bool) {T} (r : bytes -> res (bytes * T)) : Prop := MkCore {
  co_shrinks : forall inp rest v, r inp = Ok (rest, v) -> exists p, inp = p ++ rest;
  co_extends : b = true -> forall inp rest v more, r inp = Ok (rest, v) -> r (inp ++ more) = Ok (rest ++ more, v);
  co_lasts : forall inp more, lasting (r inp) = true -> r (inp ++ more) = r inp;
  co_waits : forall inp o, r inp = Err (EIncomplete o) -> exists n, o = Some n /\ 1 <= n /\
    forall more rest v, r (inp ++ more) = Ok (rest, v) -> n <= zlen (inp ++ more) - zlen rest }.
Arguments co_shrinks {b T r}. Arguments co_extends {b T r}. Arguments co_lasts {b T r}. Arguments co_waits {b T r}.

Lemma core_ext b {T} (r r' : bytes -> res (bytes * T)) : (forall inp, r inp = r' inp) -> core b r -> core b r'.
Proof.
  intros H [H1 H2 H3 H4]. constructor.
  - intros inp rest v E. rewrite <- H in E. eauto.
  - intros Hb inp rest v more E. rewrite <- H in *. eauto.
  - intros inp more E. rewrite <- !H in *. eauto.
  - intros inp o E. rewrite <- H in E. destruct (H4 _ _ E) as (n & -> & Hn & Hm). exists n. repeat split; auto. intros more rest v E1. rewrite <- H in E1. eauto.
Qed.
Lemma core_weaken b {T} (r : bytes -> res (bytes * T)) : core true r -> core b r.
Proof. intros [H1 H2 H3 H4]. constructor; auto. Qed.
Lemma core_ret b {T} (v : T) : core b (fun inp => Ok (inp, v)).
Proof.
  constructor; try discriminate.
  - intros inp rest w [= <- _]. now exists [].
  - intros _ inp rest w more [= <- <-]. reflexivity.
Qed.
Lemma core_err b {T} e : final e -> core b (fun _ : bytes => @Err (bytes * T) e).
Proof. intros F. constructor; try discriminate; [reflexivity|]. intros inp o [= ->]. destruct F. Qed.
Lemma core_panic b {T} p : core b (fun _ : bytes => @Panic (bytes * T) p).
Proof. constructor; try discriminate. reflexivity. Qed.
Lemma core_oof b {T} : core b (fun _ : bytes => @Oof (bytes * T)).
Proof. constructor; discriminate. Qed.
Lemma core_if b {T} (c : bool) (r1 r2 : bytes -> res (bytes * T)) : core b r1 -> core b r2 -> core b (fun inp => if c then r1 inp else r2 inp).
Proof. now destruct c. Qed.
Lemma core_bind b {T U} (r : bytes -> res (bytes * T)) (k : T -> bytes -> res (bytes * U)) : core true r -> (forall x, core b (k x)) ->
  core b (fun inp => '(i, x) <- r inp ;; k x i).
Proof.
  intros R K. constructor.
  - intros inp rest v E. apply bind_ok in E as [[i x] [E1 E2]]. destruct (co_shrinks R _ _ _ E1) as [p ->]. destruct (co_shrinks (K x) _ _ _ E2) as [q ->].
    exists (p ++ q). now rewrite app_assoc.
  - intros Hb inp rest v more E. apply bind_ok in E as [[i x] [E1 E2]]. rewrite (co_extends R eq_refl _ _ _ _ E1). cbn [bind]. now apply (co_extends (K x)).
  - intros inp more E. destruct (r inp) as [[i x]|e|p|] eqn:E1; cbn [bind] in *.
    + rewrite (co_extends R eq_refl _ _ _ _ E1). cbn [bind]. now apply (co_lasts (K x)).
    + pose proof (co_lasts R inp more) as L. rewrite E1 in L. rewrite L; [reflexivity|]. exact E.
    + pose proof (co_lasts R inp more) as L. rewrite E1 in L. rewrite L; [reflexivity|]. exact E.
    + discriminate.
  - intros inp o E. destruct (r inp) as [[i x]|e|p|] eqn:E1; cbn [bind] in E; try discriminate.
    + destruct (co_waits (K x) _ _ E) as (n & -> & Hn & W). exists n. split; [reflexivity|]. split; [exact Hn|]. intros more rest v E2.
      rewrite (co_extends R eq_refl _ _ _ _ E1) in E2. cbn [bind] in E2. specialize (W _ _ _ E2). destruct (co_shrinks R _ _ _ E1) as [p ->].
      rewrite <- app_assoc, zlen_app. pose proof (zlen_nonneg p). lia.
    + injection E as ->. destruct (co_waits R _ _ E1) as (n & -> & Hn & W). exists n. split; [reflexivity|]. split; [exact Hn|]. intros more rest v E2.
      apply bind_ok in E2 as [[i x] [E2 E3]]. specialize (W _ _ _ E2). destruct (co_shrinks (K x) _ _ _ E3) as [p ->]. rewrite (zlen_app p rest) in W.
      pose proof (zlen_nonneg p). lia.
Qed.
Lemma core_guard b {T U} (c : res U) (k : U -> bytes -> res (bytes * T)) : (forall o, c <> Err (EIncomplete o)) -> (forall x, core b (k x)) ->
  core b (fun inp => x <- c ;; k x inp).
Proof.
  intros N K. destruct c as [x|e|p|]; cbn [bind]; [apply K| |apply core_panic|apply core_oof]. apply core_err. destruct e; try exact I. now destruct (N n).
Qed.
Lemma core_map b {T U} (f : T -> U) r : core b r -> core b (fun inp => map_res f (r inp)).
Proof.
  intros R. constructor.
  - intros inp rest v E. apply map_res_ok in E as (x & E & ->). now apply (co_shrinks R) in E.
  - intros Hb inp rest v more E. apply map_res_ok in E as (x & E & ->). unfold map_res. now rewrite (co_extends R Hb _ _ _ _ E).
  - intros inp more E. unfold map_res in *. destruct (r inp) as [[i x]|e|p|] eqn:E1; cbn [bind] in E; try discriminate;
      (rewrite (co_lasts R inp more); rewrite E1; [reflexivity|exact E]).
  - intros inp o E. unfold map_res in E. destruct (r inp) as [[i x]|e|p|] eqn:E1; cbn [bind] in E; try discriminate. injection E as ->.
    destruct (co_waits R _ _ E1) as (n & -> & Hn & W). exists n. split; [reflexivity|]. split; [exact Hn|]. intros more rest v E2.
    apply map_res_ok in E2 as (x & E2 & _). eauto.
Qed.
(** A number of bytes all at once, read on their own. *)
Definition counts {T} (f : bytes -> res T) : Prop := forall w o, f w = Err (EIncomplete o) -> exists n, o = Some n /\ 1 <= n.
Lemma zdrop_prefix {A} n (l : list A) : exists p, l = p ++ zdrop n l.
Proof. exists (ztake n l). symmetry. apply ztake_zdrop. Qed.
Lemma core_window b {T} (n : Z) (f : bytes -> res T) : counts f ->
  core b (fun inp => _ <- check_len inp n ;; x <- f (ztake n inp) ;; Ok (zdrop n inp, x)).
Proof.
  intros C. unfold check_len. constructor.
  - intros inp rest v E. destruct (_ <? _); [discriminate|]. cbn [bind] in E. apply bind_ok in E as [x [_ E]]. injection E as <- _. apply zdrop_prefix.
  - intros _ inp rest v more E. destruct (Z.ltb_spec (zlen inp) n); [discriminate|]. cbn [bind] in E. apply bind_ok in E as [x [E1 E]]. injection E as <- <-.
    rewrite zlen_app. pose proof (zlen_nonneg more). destruct (Z.ltb_spec (zlen inp + zlen more) n); [lia|]. cbn [bind].
    rewrite ztake_app_le, zdrop_app_le by assumption. now rewrite E1.
  - intros inp more E. destruct (Z.ltb_spec (zlen inp) n); [discriminate|]. cbn [bind] in *.
    rewrite zlen_app. pose proof (zlen_nonneg more). destruct (Z.ltb_spec (zlen inp + zlen more) n); [lia|]. cbn [bind].
    rewrite ztake_app_le by assumption. destruct (f (ztake n inp)); [discriminate|reflexivity..].
  - intros inp o E. destruct (Z.ltb_spec (zlen inp) n) as [H|H]; cbn [bind] in E.
    + injection E as <-. exists n. pose proof (zlen_nonneg inp). split; [reflexivity|]. split; [lia|]. intros more rest v E1.
      destruct (Z.ltb_spec (zlen (inp ++ more)) n) as [H2|H2]; [discriminate|]. cbn [bind] in E1. apply bind_ok in E1 as [x [_ E1]]. injection E1 as <- _.
      rewrite zlen_zdrop; lia.
    + destruct (f (ztake n inp)) as [x|e|p|] eqn:E1; try discriminate. cbn [bind] in E. injection E as ->. destruct (C _ _ E1) as (m & -> & Hm).
      exists m. split; [reflexivity|]. split; [exact Hm|]. intros more rest v E2. exfalso.
      rewrite zlen_app in E2. pose proof (zlen_nonneg more). destruct (Z.ltb_spec (zlen inp + zlen more) n); [lia|]. cbn [bind] in E2.
      rewrite ztake_app_le in E2 by assumption. now rewrite E1 in E2.
Qed.
Lemma core_slice b {T} (n : Z) (f : bytes -> res T) : counts f ->
  core b (fun inp => w <- slice_to inp n ;; x <- f w ;; Ok (zdrop n inp, x)).
Proof.
  intros C. unfold slice_to. constructor.
  - intros inp rest v E. destruct (_ <? _); [discriminate|]. cbn [bind] in E. apply bind_ok in E as [x [_ E]]. injection E as <- _. apply zdrop_prefix.
  - intros _ inp rest v more E. destruct (Z.ltb_spec (zlen inp) n); [discriminate|]. cbn [bind] in E. apply bind_ok in E as [x [E1 E]]. injection E as <- <-.
    rewrite zlen_app. pose proof (zlen_nonneg more). destruct (Z.ltb_spec (zlen inp + zlen more) n); [lia|]. cbn [bind].
    rewrite ztake_app_le, zdrop_app_le by assumption. now rewrite E1.
  - intros inp more E. destruct (Z.ltb_spec (zlen inp) n); [discriminate|]. cbn [bind] in *.
    rewrite zlen_app. pose proof (zlen_nonneg more). destruct (Z.ltb_spec (zlen inp + zlen more) n); [lia|]. cbn [bind].
    rewrite ztake_app_le by assumption. destruct (f (ztake n inp)); [discriminate|reflexivity..].
  - intros inp o E. destruct (Z.ltb_spec (zlen inp) n) as [H|H]; [discriminate|]. cbn [bind] in E.
    destruct (f (ztake n inp)) as [x|e|p|] eqn:E1; try discriminate. cbn [bind] in E. injection E as ->. destruct (C _ _ E1) as (m & -> & Hm).
    exists m. split; [reflexivity|]. split; [exact Hm|]. intros more rest v E2. exfalso.
    rewrite zlen_app in E2. pose proof (zlen_nonneg more). destruct (Z.ltb_spec (zlen inp + zlen more) n); [lia|]. cbn [bind] in E2.
    rewrite ztake_app_le in E2 by assumption. now rewrite E1 in E2.
Qed.
Lemma core_counts b {T} (r : bytes -> res (bytes * T)) : core b r -> counts r.
Proof. intros R w o E. destruct (co_waits R _ _ E) as (n & -> & Hn & _). eauto. Qed.

(** ** What the errors say

    [cx]: format codes read before.  [N]: names of the mandatory fields of the composite being read. *)
Definition says_in (cx : list Z) (inp : bytes) (e : perr) : Prop :=
  match e with
  | EInvalidFormatCode c => In c cx \/ In c inp
  | _ => says inp e
  end.
Definition tells {T} (cx : list Z) (r : bytes -> res T) : Prop := forall inp e, bytes_ok inp -> r inp = Err e -> says_in cx inp e.
Lemma part_in a i p q : part a i -> part a (p ++ i ++ q).
Proof. intros (l & r & ->). exists (p ++ l), (r ++ q). now rewrite <- !app_assoc. Qed.
Lemma says_part cx cx' i p q e : (forall c, In c cx -> In c (cx' ++ p ++ i ++ q)) -> says_in cx i e -> says_in cx' (p ++ i ++ q) e.
Proof.
  intros H. pose proof (fun a => part_in a i p q) as P. destruct e; cbn [says_in says]; try easy.
  - intros [HI|HI].
    + apply in_app_or. auto.
    + right. rewrite !in_app_iff. auto.
  - intros [H1 H2]. auto.
  - intros (label & H1 & H2). exists label. auto.
  - intros (code & type & names & label & H1 & H2 & H3 & H4). exists code, type, names, label. auto.
  - intros [(opts & n & H1 & H2 & H3)|(opts & t & bs & H1 & H2 & H3 & H4)].
    + left. exists opts, n. intuition auto.
    + right. exists opts, t, bs. auto.
  - intros (t & bs & H1 & H2 & H3). exists t, bs. auto.
Qed.
Lemma says_tail cx cx' i p e : (forall c, In c cx -> In c (cx' ++ p ++ i)) -> says_in cx i e -> says_in cx' (p ++ i) e.
Proof. intros H. pose proof (says_part cx cx' i p [] e) as S. rewrite app_nil_r in S. auto. Qed.
Definition shrinks {T} (r : bytes -> res (bytes * T)) : Prop := forall inp rest v, r inp = Ok (rest, v) -> exists p, inp = p ++ rest.
Lemma tells_bind cx {T U} (r : bytes -> res (bytes * T)) (k : T -> bytes -> res U) : tells cx r -> shrinks r -> (forall x, tells cx (k x)) ->
  tells cx (fun inp => '(i, x) <- r inp ;; k x i).
Proof.
  intros R S K inp e Hb E. destruct (r inp) as [[i x]|e1|p|] eqn:E1; cbn [bind] in E; try discriminate.
  - destruct (S _ _ _ E1) as [p ->]. apply bytes_ok_app in Hb as [_ Hb]. apply (says_tail cx); [|now apply (K x)]. intros c Hc. apply in_or_app. now left.
  - injection E as <-. now apply R.
Qed.

(** ** Both *)
Definition steady (b : bool) (cx : list Z) {T} (r : bytes -> res (bytes * T)) : Prop := core b r /\ tells cx r.
Lemma st_ext b cx {T} (r r' : bytes -> res (bytes * T)) : (forall inp, r inp = r' inp) -> steady b cx r -> steady b cx r'.
Proof. intros H [C S]. split; [now apply (core_ext b r)|]. intros inp e Hb E. rewrite <- H in E. now apply S. Qed.
Lemma st_weaken b cx {T} (r : bytes -> res (bytes * T)) : steady true cx r -> steady b cx r.
Proof. intros [C S]. split; [now apply core_weaken|exact S]. Qed.
Lemma st_ret b cx {T} (v : T) : steady b cx (fun inp => Ok (inp, v)).
Proof. split; [apply core_ret|]. intros inp e _ [=]. Qed.
Lemma st_code b cx {T} c : In c cx -> steady b cx (fun _ : bytes => @Err (bytes * T) (EInvalidFormatCode c)).
Proof. intros H. split; [apply core_err; exact I|]. intros inp e _ [= <-]. now left. Qed.
Lemma st_panic b cx {T} p : steady b cx (fun _ : bytes => @Panic (bytes * T) p).
Proof. split; [apply core_panic|]. intros inp e _ [=]. Qed.
Lemma st_if b cx {T} (c : bool) (r1 r2 : bytes -> res (bytes * T)) : steady b cx r1 -> steady b cx r2 -> steady b cx (fun inp => if c then r1 inp else r2 inp).
Proof. now destruct c. Qed.
Lemma st_bind b cx {T U} (r : bytes -> res (bytes * T)) (k : T -> bytes -> res (bytes * U)) : steady true cx r -> (forall x, steady b cx (k x)) ->
  steady b cx (fun inp => '(i, x) <- r inp ;; k x i).
Proof. intros [R1 R2] K. split; [apply core_bind; [exact R1|apply K]|]. apply tells_bind; [exact R2|exact (co_shrinks R1)|apply K]. Qed.
Lemma st_map b cx {T U} (f : T -> U) r : steady b cx r -> steady b cx (fun inp => map_res f (r inp)).
Proof.
  intros [C S]. split; [now apply core_map|]. intros inp e Hb E. unfold map_res in E. destruct (r inp) as [[i x]|e1|p|] eqn:E1; cbn [bind] in E; try discriminate.
  injection E as <-. now apply S.
Qed.
Lemma st_context b cx cx' {T} (r : bytes -> res (bytes * T)) : incl cx cx' -> steady b cx r -> steady b cx' r.
Proof.
  intros I [C S]. split; [exact C|]. intros inp e Hb E. apply (says_tail cx cx' inp [] e); [|now apply S]. intros c Hc. apply in_or_app. left. auto.
Qed.
Lemma st_validate b cx {T} fmt c (r : bytes -> res (bytes * T)) : In fmt cx -> steady b cx r -> steady b cx (fun inp => _ <- validate_code fmt c ;; r inp).
Proof. intros H R. unfold validate_code. destruct (_ =? _); cbn [bind]; [exact R|now apply st_code]. Qed.
(** A check on the value read. *)
Lemma st_post b cx {T U} (r : bytes -> res (bytes * T)) (f : T -> res U) : steady true cx r ->
  (forall inp i x e, bytes_ok inp -> r inp = Ok (i, x) -> f x = Err e -> says_in cx inp e) -> (forall x o, f x <> Err (EIncomplete o)) ->
  steady b cx (fun inp => '(i, x) <- r inp ;; y <- f x ;; Ok (i, y)).
Proof.
  intros [R1 R2] H N. split.
  - apply (core_bind b r (fun x i => y <- f x ;; Ok (i, y))); [exact R1|]. intros x. apply (core_guard b (f x) (fun y i => Ok (i, y))); [apply N|]. intros y. apply core_ret.
  - intros inp e Hb E. destruct (r inp) as [[i x]|e1|p|] eqn:E1; cbn [bind] in E; try discriminate.
    + destruct (f x) eqn:E2; try discriminate. injection E as <-. now apply (H inp i x).
    + injection E as <-. now apply R2.
Qed.
Lemma take_part {A} n (inp : list A) : exists p q, inp = p ++ ztake n inp ++ q.
Proof. exists [], (zdrop n inp). symmetry. apply ztake_zdrop. Qed.
Lemma tells_window cx {T} (n : Z) (f : bytes -> res T) : counts f -> tells cx f ->
  tells cx (fun inp => _ <- check_len inp n ;; x <- f (ztake n inp) ;; Ok (zdrop n inp, x)).
Proof.
  intros C F inp e Hb E. unfold check_len in E. destruct (Z.ltb_spec (zlen inp) n); cbn [bind] in E.
  - injection E as <-. exists n. pose proof (zlen_nonneg inp). split; [reflexivity|lia].
  - destruct (f (ztake n inp)) eqn:E1; try discriminate. injection E as ->. apply F in E1; [|now apply bytes_ok_ztake].
    destruct (take_part n inp) as (p & q & Hi). rewrite Hi. apply (says_part cx); [|exact E1]. intros c Hc. apply in_or_app. now left.
Qed.
Lemma tells_slice cx {T} (n : Z) (f : bytes -> res T) : tells cx f ->
  tells cx (fun inp => w <- slice_to inp n ;; x <- f w ;; Ok (zdrop n inp, x)).
Proof.
  intros F inp e Hb E. unfold slice_to in E. destruct (Z.ltb_spec (zlen inp) n); cbn [bind] in E; [discriminate|].
  destruct (f (ztake n inp)) eqn:E1; try discriminate. injection E as ->. apply F in E1; [|now apply bytes_ok_ztake].
  destruct (take_part n inp) as (p & q & Hi). rewrite Hi. apply (says_part cx); [|exact E1]. intros c Hc. apply in_or_app. now left.
Qed.
Lemma st_window b cx {T} (n : Z) (f : bytes -> res T) : counts f -> tells cx f ->
  steady b cx (fun inp => _ <- check_len inp n ;; x <- f (ztake n inp) ;; Ok (zdrop n inp, x)).
Proof. intros C F. split; [now apply core_window|now apply tells_window]. Qed.
Lemma st_slice b cx {T} (n : Z) (f : bytes -> res T) : counts f -> tells cx f ->
  steady b cx (fun inp => w <- slice_to inp n ;; x <- f w ;; Ok (zdrop n inp, x)).
Proof. intros C F. split; [now apply core_slice|now apply tells_slice]. Qed.
Lemma st_take b cx n : steady b cx (fun inp => _ <- check_len inp n ;; Ok (zdrop n inp, ztake n inp)).
Proof. apply (st_ext b cx (fun inp => _ <- check_len inp n ;; x <- Ok (ztake n inp) ;; Ok (zdrop n inp, x))); [reflexivity|]. apply (st_window b cx n (fun w => Ok w)); intros w e; discriminate. Qed.
Lemma st_iter b cx {X} (step : bytes * X -> res (bytes * X)) : (forall acc, steady true cx (fun inp => step (inp, acc))) ->
  forall n acc, steady b cx (fun inp => iter_res n step (inp, acc)).
Proof.
  intros H. induction n as [|n IH]; intros acc; cbn [iter_res]; [apply st_ret|].
  apply (st_ext b cx (fun inp => '(i, x) <- step (inp, acc) ;; iter_res n step (i, x))); [intros inp; apply bind_ext; now intros []|].
  apply (st_bind b cx _ (fun x i => iter_res n step (i, x))); [apply H|exact IH].
Qed.
Lemma st_loop b cx {X} (step : bytes * X -> res (bytes * X)) n acc : (forall acc, steady true cx (fun inp => step (inp, acc))) ->
  steady b cx (fun inp => loop_n n step (inp, acc)).
Proof. intros H. apply (st_ext b cx (fun inp => iter_res (Z.to_nat n) step (inp, acc))); [intros inp; symmetry; apply loop_n_iter|]. now apply st_iter. Qed.
Lemma st_counts b cx {T} (r : bytes -> res (bytes * T)) : steady b cx r -> counts r.
Proof. intros [C _]. eapply core_counts. exact C. Qed.

(** ** Readers of bytes and numbers *)
Lemma st_u8 b cx : steady b cx read_u8.
Proof.
  apply (st_ext b cx (fun inp => _ <- check_len inp 1 ;; x <- match ztake 1 inp with [c] => Ok c | _ => Panic PSlice end ;; Ok (zdrop 1 inp, x))).
  - intros [|c r]; [reflexivity|]. unfold read_u8. destruct (check_len (c :: r) 1); [|reflexivity..]. cbn [bind].
    change (ztake 1 (c :: r)) with [c]. now change (zdrop 1 (c :: r)) with r.
  - apply (st_window b cx 1 (fun w => match w with [c] => Ok c | _ => Panic PSlice end)); [intros w o|intros w e _]; destruct w as [|? []]; discriminate.
Qed.
Lemma st_be b cx n : steady b cx (fun inp => be_read inp n).
Proof.
  apply (st_ext b cx (fun inp => _ <- check_len inp n ;; x <- Ok (be_val (ztake n inp)) ;; Ok (zdrop n inp, x))); [reflexivity|].
  apply (st_window b cx n (fun w => Ok (be_val w))); [intros w o|intros w e _]; discriminate.
Qed.
Lemma st_be_signed b cx n : steady b cx (fun inp => be_read_signed inp n).
Proof. apply (st_bind b cx _ (fun o i => Ok (i, to_signed (8 * n) o))); [apply st_be|intros x; apply st_ret]. Qed.
Lemma st_i8 b cx : steady b cx read_i8.
Proof. apply (st_bind b cx _ (fun o i => Ok (i, to_signed 8 o))); [apply st_u8|intros x; apply st_ret]. Qed.
Lemma st_bytes_u8 b cx : steady b cx read_bytes_u8.
Proof. apply (st_bind b cx _ (fun n i => _ <- check_len i n ;; Ok (zdrop n i, ztake n i))); [apply st_u8|intros n; apply st_take]. Qed.
Lemma st_bytes_u32 b cx : steady b cx read_bytes_u32.
Proof. apply (st_bind b cx (fun inp => be_read inp 4) (fun n i => _ <- check_len i n ;; Ok (zdrop n i, ztake n i))); [apply st_be|intros n; apply st_take]. Qed.
Lemma usub_ok md bits x y e : usub md bits x y <> Err e.
Proof. unfold usub. destruct (_ <? _); [destruct md|]; discriminate. Qed.
Lemma st_compound8 b cx md : steady b cx (decode_compound8 md).
Proof.
  set (f := fun w => match w with [b0; b1] => size <- usub md 8 b0 1 ;; Ok (MkCH size b1) | _ => Panic PSlice end).
  apply (st_ext b cx (fun inp => _ <- check_len inp 2 ;; x <- f (ztake 2 inp) ;; Ok (zdrop 2 inp, x))).
  - intros inp. unfold decode_compound8. destruct (check_len inp 2) eqn:E; try reflexivity. cbn [bind]. destruct inp as [|b0 [|b1 r]]; [reflexivity..|].
    change (ztake 2 (b0 :: b1 :: r)) with [b0; b1]. change (zdrop 2 (b0 :: b1 :: r)) with r. unfold f. destruct (usub md 8 b0 1); reflexivity.
  - apply st_window; unfold f; [intros w o E|intros w e _ E]; exfalso; destruct w as [|b0 [|b1 []]]; try discriminate;
      (destruct (usub md 8 b0 1) eqn:U; try discriminate; now apply usub_ok in U).
Qed.
Lemma st_compound32 b cx md : steady b cx (decode_compound32 md).
Proof.
  set (f := fun w => size <- usub md 32 (be_val (ztake 4 w)) 4 ;; Ok (MkCH size (be_val (ztake 4 (zdrop 4 w))))).
  apply (st_ext b cx (fun inp => _ <- check_len inp 8 ;; x <- f (ztake 8 inp) ;; Ok (zdrop 8 inp, x))).
  - intros inp. unfold decode_compound32. destruct (check_len inp 8) as [[]|e|p|] eqn:E; try reflexivity. cbn [bind]. apply check_len_ok in E.
    assert (L : zlen (ztake 8 inp) = 8) by (apply zlen_ztake; lia).
    assert (A1 : ztake 4 inp = ztake 4 (ztake 8 inp)) by (rewrite <- (ztake_zdrop 8 inp) at 1; now rewrite ztake_app_le by lia).
    assert (A2 : ztake 4 (zdrop 4 inp) = ztake 4 (zdrop 4 (ztake 8 inp))).
    { rewrite <- (ztake_zdrop 8 inp) at 1. rewrite zdrop_app_le by lia. now rewrite ztake_app_le by (rewrite zlen_zdrop; lia). }
    rewrite A1, A2. unfold f. destruct (usub md 32 _ 4); reflexivity.
  - apply st_window; unfold f; [intros w o E|intros w e _ E]; exfalso; destruct (usub md 32 _ 4) eqn:U; try discriminate; now apply usub_ok in U.
Qed.
Lemma st_array_header b md fmt : steady b [fmt] (fun inp => decode_array_header md inp fmt).
Proof. unfold decode_array_header. repeat apply st_if; [apply st_compound8|apply st_compound32|apply st_code; now left]. Qed.
Lemma st_map_header b md fmt : steady b [fmt] (fun inp => decode_map_header md inp fmt).
Proof. unfold decode_map_header. repeat apply st_if; [apply st_compound8|apply st_compound32|apply st_code; now left]. Qed.
Lemma st_list_header b md fmt : steady b [fmt] (fun inp => decode_list_header md inp fmt).
Proof. unfold decode_list_header. repeat apply st_if; [apply st_ret|apply st_compound8|apply st_compound32|apply st_code; now left]. Qed.

(** ** Decoders of values *)
Definition dsteady {T} (d : dec T) : Prop := forall md fmt, steady true [fmt] (fun inp => d md inp fmt).
Lemma st_decode cx {T} (d : dec T) md : dsteady d -> steady true cx (decode d md).
Proof.
  intros D. split.
  - apply (core_bind true decode_format_code (fun f i => d md i f)); [apply (st_u8 true [])|]. intros x. apply D.
  - intros inp e Hb E. destruct inp as [|c r].
    + cbn in E. injection E as <-. exists 1. split; [reflexivity|lia].
    + rewrite decode_cons in E. inversion Hb; subst. apply (says_tail [c] cx r [c]); [|now apply (D md c)]. intros x [<-|[]]. apply in_or_app. right. now left.
Qed.
Ltac ds := intros md fmt; apply st_validate; [now left|].
Ltac di := repeat apply st_if; try (apply st_ret); try (apply st_code; now left).
Lemma ds_bool : dsteady bool_dec.
Proof. intros md fmt. unfold bool_dec. di. apply (st_bind true [fmt] _ (fun o i => Ok (i, negb (o =? 0)))); [apply st_u8|intros; apply st_ret]. Qed.
Lemma ds_u8 : dsteady u8_dec. Proof. ds. apply st_u8. Qed.
Lemma ds_u16 : dsteady u16_dec. Proof. ds. apply st_be. Qed.
Lemma ds_u32 : dsteady u32_dec. Proof. intros md fmt. unfold u32_dec. di; [apply st_be|apply st_u8]. Qed.
Lemma ds_u64 : dsteady u64_dec. Proof. intros md fmt. unfold u64_dec. di; [apply st_be|apply st_u8]. Qed.
Lemma ds_i8 : dsteady i8_dec. Proof. ds. apply st_i8. Qed.
Lemma ds_i16 : dsteady i16_dec. Proof. ds. apply st_be_signed. Qed.
Lemma ds_i32 : dsteady i32_dec. Proof. intros md fmt. unfold i32_dec. di; [apply st_be_signed|apply st_i8]. Qed.
Lemma ds_i64 : dsteady i64_dec. Proof. intros md fmt. unfold i64_dec. di; [apply st_be_signed|apply st_i8]. Qed.
Lemma ds_f32 : dsteady f32_dec. Proof. ds. apply st_be. Qed.
Lemma ds_f64 : dsteady f64_dec. Proof. ds. apply st_be. Qed.
Lemma ds_char : dsteady char_dec.
Proof.
  ds. apply (st_ext true [fmt] (fun inp => '(i, o) <- be_read inp 4 ;; y <- (if char_ok o then Ok o else Err (EInvalidChar o)) ;; Ok (i, y))).
  - intros inp. apply bind_ext. intros [i o]. now destruct (char_ok o).
  - apply st_post; [apply st_be| |intros x o; destruct (char_ok x); discriminate]. intros inp i x e Hb E1 E2. apply be_read_inv4 in E1 as (-> & R & _); [|exact Hb].
    destruct (char_ok x) eqn:C; [discriminate|]. injection E2 as <-. split; [now exists [], i|]. intros S. apply char_ok_spec in S. congruence.
Qed.
Lemma millis_err ms e : datetime_from_millis ms <> Err e.
Proof. unfold datetime_from_millis, utc_timestamp. repeat match goal with |- context [if ?c then _ else _] => destruct c end; discriminate. Qed.
Lemma ds_datetime : dsteady datetime_dec.
Proof.
  ds. apply st_post; [apply st_be_signed| |].
  - intros inp i x e _ _ E. now apply millis_err in E.
  - intros x o E. now apply millis_err in E.
Qed.
Lemma ds_uuid : dsteady uuid_dec. Proof. ds. apply st_take. Qed.
Lemma ds_bin : dsteady bin_dec. Proof. intros md fmt. unfold bin_dec. di; [apply st_bytes_u8|apply st_bytes_u32]. Qed.
Lemma st_text {T} cx (g : bytes -> T) (r : bytes -> res (bytes * bytes)) : steady true cx r ->
  (forall inp i t, bytes_ok inp -> r inp = Ok (i, t) -> bytes_ok t /\ exists bs, counted t bs /\ part bs inp) ->
  steady true cx (fun inp => '(i, t) <- r inp ;; s <- from_utf8 t ;; Ok (i, g s)).
Proof.
  intros R H. apply (st_ext true cx (fun inp => '(i, t) <- r inp ;; y <- (s <- from_utf8 t ;; Ok (g s)) ;; Ok (i, y))).
  - intros inp. apply bind_ext. intros [i t]. unfold from_utf8. now destruct (utf8_valid t).
  - apply st_post; [exact R| |intros x o; unfold from_utf8; destruct (utf8_valid x); discriminate]. intros inp i t e Hb E1 E2.
    unfold from_utf8 in E2. destruct (utf8_valid t) eqn:U; [discriminate|]. injection E2 as <-. destruct (H _ _ _ Hb E1) as (Ht & bs & C & P).
    exists t, bs. repeat split; auto. intros S. apply utf8_valid_spec in S; [congruence|exact Ht].
Qed.
Lemma counted_u8 inp i t : bytes_ok inp -> read_bytes_u8 inp = Ok (i, t) -> bytes_ok t /\ exists bs, counted t bs /\ part bs inp.
Proof. intros Hb E. apply read_bytes_u8_inv in E as (-> & _ & Ht); [|exact Hb]. split; [exact Ht|]. exists (zlen t :: t). split; [now left|]. now exists [], i. Qed.
Lemma counted_u32 inp i t : bytes_ok inp -> read_bytes_u32 inp = Ok (i, t) -> bytes_ok t /\ exists bs, counted t bs /\ part bs inp.
Proof.
  intros Hb E. apply read_bytes_u32_inv in E as (-> & _ & Ht); [|exact Hb]. split; [exact Ht|]. exists (be4 (zlen t) ++ t). split; [now right|]. exists [], i.
  cbn [app]. now rewrite app_assoc.
Qed.
Lemma ds_bstr : dsteady bstr_dec.
Proof. intros md fmt. unfold bstr_dec. di; (apply (st_text [fmt] (fun s => s)); [first [apply st_bytes_u8|apply st_bytes_u32]|first [exact counted_u8|exact counted_u32]]). Qed.
Lemma ds_str : dsteady str_dec.
Proof. intros md fmt. unfold str_dec. di; (apply (st_text [fmt] str_from_str); [first [apply st_bytes_u8|apply st_bytes_u32]|first [exact counted_u8|exact counted_u32]]). Qed.
Lemma ds_symbol : dsteady symbol_dec.
Proof. intros md fmt. unfold symbol_dec. di; (apply (st_text [fmt] symbol_from_slice); [first [apply st_bytes_u8|apply st_bytes_u32]|first [exact counted_u8|exact counted_u32]]). Qed.
Lemma ds_descriptor : dsteady descriptor_dec.
Proof. intros md fmt. unfold descriptor_dec. di; apply st_map; first [apply ds_u64|apply ds_symbol]. Qed.
Lemma ds_message_id : dsteady message_id_dec.
Proof. intros md fmt. unfold message_id_dec. di; apply st_map; first [apply ds_u64|apply ds_uuid|apply ds_bin|apply ds_bstr]. Qed.

(** Enumerations. *)
Lemma ds_enum {B T} (d : dec B) (tf : B -> res T) : dsteady d -> (forall md fmt inp i x e, bytes_ok inp -> d md inp fmt = Ok (i, x) -> tf x = Err e -> says inp e /\ final e) ->
  (forall x o, tf x <> Err (EIncomplete o)) -> dsteady (enum_dec d tf).
Proof.
  intros D H N md fmt. apply st_post; [apply D| |exact N]. intros inp i x e Hb E1 E2. destruct (H _ _ _ _ _ _ Hb E1 E2) as [S _].
  destruct e; try exact S. now right.
Qed.
Definition refuses {B T} (tf : B -> res T) (name : string) (opts : list B) : Prop := forall x e, tf x = Err e -> e = EUnknownEnumOption name /\ ~ In x opts.
Lemma ds_byte_enum {T} (tf : Z -> res T) name opts : refuses tf name opts -> In (name, opts) numbered -> dsteady (enum_dec u8_dec tf).
Proof.
  intros R I. apply ds_enum; [exact ds_u8| |intros x o E; now apply R in E]. intros md fmt inp i x e Hb E1 E2. apply R in E2 as [-> E2]. split; [|exact Logic.I].
  left. exists opts, x. split; [exact I|]. split; [exact E2|]. left. unfold u8_dec, validate_code in E1. destruct (_ =? _); [|discriminate]. cbn [bind] in E1.
  apply read_u8_inv in E1 as (-> & _ & _); [|exact Hb]. now exists [], i.
Qed.
Lemma ds_word_enum {T} (tf : Z -> res T) name opts : refuses tf name opts -> In 0 opts -> In (name, opts) numbered -> dsteady (enum_dec u32_dec tf).
Proof.
  intros R Z I. apply ds_enum; [exact ds_u32| |intros x o E; now apply R in E]. intros md fmt inp i x e Hb E1 E2. apply R in E2 as [-> E2]. split; [|exact Logic.I].
  left. exists opts, x. split; [exact I|]. split; [exact E2|]. unfold u32_dec in E1. destruct (_ =? _); [|destruct (_ =? _); [|destruct (_ =? _); [|discriminate]]].
  - right. apply be_read_inv4 in E1 as (-> & _ & _); [|exact Hb]. now exists [], i.
  - left. apply read_u8_inv in E1 as (-> & _ & _); [|exact Hb]. now exists [], i.
  - now injection E1 as _ <-.
Qed.
Lemma symbol_counted md inp fmt i x : bytes_ok inp -> symbol_dec md inp fmt = Ok (i, x) -> exists t bs, x = SByteStr t /\ counted t bs /\ part bs inp.
Proof.
  intros Hb E. unfold symbol_dec in E. destruct (_ =? _); [|destruct (_ =? _); [|discriminate]]; apply bind_ok in E as [[j t] [E1 E]];
    [apply counted_u8 in E1 as (_ & bs & C & P)|apply counted_u32 in E1 as (_ & bs & C & P)]; try exact Hb;
    apply bind_ok in E as [s [E2 E]]; unfold from_utf8 in E2; destruct (utf8_valid t); try discriminate; injection E2 as <-; injection E as _ <-; exists t, bs; auto.
Qed.
Definition refuses_text {T} (tf : symbol -> res T) (name : string) (opts : list string) : Prop :=
  forall t e, tf (SByteStr t) = Err e -> e = EUnknownEnumOption name /\ ~ In t (map s2b opts).
Lemma ds_name_enum {T} (tf : symbol -> res T) name opts : refuses_text tf name opts -> (forall x o, tf x <> Err (EIncomplete o)) -> In (name, opts) spelled ->
  dsteady (enum_dec symbol_dec tf).
Proof.
  intros R N I. apply ds_enum; [exact ds_symbol| |exact N]. intros md fmt inp i x e Hb E1 E2. destruct (symbol_counted _ _ _ _ _ Hb E1) as (t & bs & -> & C & P).
  apply R in E2 as [-> E2]. split; [|exact Logic.I]. right. exists opts, t, bs. auto.
Qed.
Ltac refuse tf := intros x e; unfold tf; repeat match goal with |- context [if ?c then _ else _] => destruct c eqn:? end; try discriminate; intros [= <-];
  split; [reflexivity|]; cbn [In map]; lia.
Ltac refuse_text tf := intros t e; unfold tf; repeat match goal with |- context [if sym_is ?s ?c then _ else _] => destruct (sym_is s c) eqn:? end;
  try discriminate; intros [= <-]; split; [reflexivity|]; cbn [In map]; intros HI; repeat (destruct HI as [<-|HI]; [discriminate|]); exact HI.
Ltac complete tf := intros x o; unfold tf; repeat match goal with |- context [if ?c then _ else _] => destruct c end; discriminate.
Ltac listed_name := repeat (first [left; reflexivity|right]).
Lemma ds_sender_settle_mode : dsteady sender_settle_mode_dec.
Proof. apply (ds_byte_enum _ "SenderSettleMode" [0; 1; 2]); [refuse sender_settle_mode_try_from|listed_name]. Qed.
Lemma ds_receiver_settle_mode : dsteady receiver_settle_mode_dec.
Proof. apply (ds_byte_enum _ "ReceiverSettleMode" [0; 1]); [refuse receiver_settle_mode_try_from|listed_name]. Qed.
Lemma ds_sasl_code : dsteady sasl_code_dec.
Proof. apply (ds_byte_enum _ "SaslCode" [0; 1; 2; 3; 4]); [refuse sasl_code_try_from|listed_name]. Qed.
Lemma ds_terminus_durability : dsteady terminus_durability_dec.
Proof. apply (ds_word_enum _ "TerminusDurability" [0; 1; 2]); [refuse terminus_durability_try_from|now left|listed_name]. Qed.
Lemma ds_terminus_expiry_policy : dsteady terminus_expiry_policy_dec.
Proof. eapply (ds_name_enum _ "TerminusExpiryPolicy"); [|complete terminus_expiry_policy_try_from|listed_name]. refuse_text terminus_expiry_policy_try_from. Qed.
Lemma ds_amqp_error : dsteady amqp_error_dec.
Proof. eapply (ds_name_enum _ "AmqpError"); [|complete amqp_error_try_from|listed_name]. refuse_text amqp_error_try_from. Qed.
Lemma ds_connection_error : dsteady connection_error_dec.
Proof. eapply (ds_name_enum _ "ConnectionError"); [|complete connection_error_try_from|listed_name]. refuse_text connection_error_try_from. Qed.
Lemma ds_session_error : dsteady session_error_dec.
Proof. eapply (ds_name_enum _ "SessionError"); [|complete session_error_try_from|listed_name]. refuse_text session_error_try_from. Qed.
Lemma ds_link_error : dsteady link_error_dec.
Proof. eapply (ds_name_enum _ "LinkError"); [|complete link_error_try_from|listed_name]. refuse_text link_error_try_from. Qed.
Lemma ds_role : dsteady role_dec.
Proof. apply ds_enum; [exact ds_bool|intros md fmt inp i [] e _ _ [=]|intros []; discriminate]. Qed.
Lemma ds_error_condition : dsteady error_condition_dec.
Proof. intros md fmt. apply (st_bind true [fmt] _ (fun s i => Ok (i, error_condition_of_symbol s))); [apply ds_symbol|intros; apply st_ret]. Qed.
Lemma ds_distribution_mode : dsteady distribution_mode_dec.
Proof. intros md fmt. apply (st_bind true [fmt] _ (fun s i => Ok (i, distribution_mode_of_symbol s))); [apply ds_symbol|intros; apply st_ret]. Qed.

(** Collections. *)
Lemma st_step cx {T} (d : bytes -> res (bytes * T)) : steady true cx d -> forall acc, steady true cx (fun inp => vec_step d (inp, acc)).
Proof. intros D acc. apply (st_bind true cx d (fun x i => Ok (i, acc ++ [x]))); [exact D|intros x; apply st_ret]. Qed.
Lemma ds_list {T} (d : dec T) : dsteady d -> dsteady (list_dec d).
Proof.
  intros D md fmt. apply (st_bind true [fmt] (fun inp => decode_list_header md inp fmt) (fun h i => loop_n (ch_count h) (vec_step (decode d md)) (i, []))); [apply st_list_header|].
  intros h. apply st_loop. apply st_step. now apply st_decode.
Qed.
Lemma ds_vec {T} (d : dec T) : dsteady d -> dsteady (vec_dec d).
Proof.
  intros D md fmt. apply (st_bind true [fmt] (fun inp => decode_array_header md inp fmt) (fun h i => match i with [] => Panic PSlice | c :: r =>
    loop_n (ch_count h) (vec_step (fun i => d md i c)) (r, []) end)); [apply st_array_header|].
  intros h. assert (L : forall c, steady true [c] (fun r => loop_n (ch_count h) (vec_step (fun i => d md i c)) (r, []))).
  { intros c. apply st_loop. apply st_step. apply D. }
  split; [constructor|].
  - intros [|c r] rest v E; [discriminate|]. destruct (co_shrinks (proj1 (L c)) _ _ _ E) as [p ->]. now exists (c :: p).
  - intros _ [|c r] rest v more E; [discriminate|]. cbn [app]. now apply (co_extends (proj1 (L c)) eq_refl).
  - intros [|c r] more E; [discriminate|]. cbn [app]. now apply (co_lasts (proj1 (L c))).
  - intros [|c r] o E; [discriminate|]. destruct (co_waits (proj1 (L c)) _ _ E) as (n & -> & Hn & W). exists n. split; [reflexivity|]. split; [exact Hn|].
    intros more rest v E1. cbn [app] in E1. specialize (W _ _ _ E1). cbn [app]. rewrite zlen_cons. lia.
  - intros [|c r] e Hb E; [discriminate|]. inversion Hb; subst. apply (says_tail [c] [fmt] r [c]); [|now apply (proj2 (L c))].
    intros x [<-|[]]. right. now left.
Qed.
Lemma ds_multiple {T} (d : dec T) : dsteady d -> dsteady (multiple_dec d).
Proof.
  intros D md fmt. unfold multiple_dec. apply st_if; [now apply ds_vec|]. apply (st_bind true [fmt] (fun inp => d md inp fmt) (fun x i => Ok (i, [x]))); [apply D|intros; apply st_ret].
Qed.
Lemma ds_option {T} (d : dec T) : dsteady d -> dsteady (option_dec d).
Proof. intros D md fmt. unfold option_dec. apply st_if; [apply st_ret|]. apply st_map, D. Qed.
Lemma st_map_like {X} md fmt (step : bytes * X -> res (bytes * X)) (x0 : X) : (forall acc, steady true [fmt] (fun inp => step (inp, acc))) ->
  steady true [fmt] (fun inp => '(inp1, header) <- decode_map_header md inp fmt ;;
    map_input <- slice_to inp1 (ch_size header) ;;
    '(_, m) <- loop_n (ch_count header / 2) step (map_input, x0) ;;
    Ok (zdrop (ch_size header) inp1, m)).
Proof.
  intros H. apply (st_bind true [fmt] (fun inp => decode_map_header md inp fmt) (fun h i => w <- slice_to i (ch_size h) ;;
    '(_, m) <- loop_n (ch_count h / 2) step (w, x0) ;; Ok (zdrop (ch_size h) i, m))); [apply st_map_header|]. intros h.
  assert (L : steady true [fmt] (fun w => loop_n (ch_count h / 2) step (w, x0))) by now apply st_loop.
  apply (st_ext true [fmt] (fun i => w <- slice_to i (ch_size h) ;; x <- ('(_, m) <- loop_n (ch_count h / 2) step (w, x0) ;; Ok m) ;; Ok (zdrop (ch_size h) i, x))).
  - intros i. apply bind_ext. intros w. now destruct (loop_n _ step (w, x0)) as [[]|?|?|].
  - apply (st_slice true [fmt] (ch_size h) (fun w => '(_, m) <- loop_n (ch_count h / 2) step (w, x0) ;; Ok m)).
    + intros w o E. destruct (loop_n _ step (w, x0)) as [[]|?|?|] eqn:E1; try discriminate. injection E as ->. now apply (st_counts _ _ _ L) in E1.
    + intros w e Hb E. destruct (loop_n _ step (w, x0)) as [[]|?|?|] eqn:E1; try discriminate. injection E as ->. now apply (proj2 L).
Qed.
Lemma ds_map {K V} (KO : key K) (dk : dec K) (dv : dec V) : dsteady dk -> dsteady dv -> dsteady (map_dec KO dk dv).
Proof.
  intros HK HV md fmt. apply (st_map_like md fmt (map_step KO (decode dk md) (decode dv md)) []). intros acc. unfold map_step.
  apply (st_bind true [fmt] (decode dk md) (fun k i => '(j, v) <- decode dv md i ;; if k_hashable KO k then Ok (j, hm_insert (k_eqb KO) k v acc) else Panic PUnimplemented)).
  - now apply st_decode.
  - intros k. apply (st_bind true [fmt] (decode dv md) (fun v j => if k_hashable KO k then Ok (j, hm_insert (k_eqb KO) k v acc) else Panic PUnimplemented)); [now apply st_decode|].
    intros v. apply st_if; [apply st_ret|apply st_panic].
Qed.
Lemma ds_body rec : dsteady rec -> dsteady (variant_body rec).
Proof.
  intros D md fmt. unfold variant_body. di; try apply st_map.
  all: try first [apply ds_bool|apply ds_u8|apply ds_u16|apply ds_u32|apply ds_u64|apply ds_i8|apply ds_i16|apply ds_i32|apply ds_i64|apply ds_f32|apply ds_f64|
    apply ds_char|apply ds_datetime|apply ds_uuid|apply ds_bin|apply ds_bstr|apply ds_symbol|now apply ds_list|now apply ds_map].
  apply (st_bind true [fmt] (decode descriptor_dec md) (fun d i => '(j, v) <- decode rec md i ;; Ok (j, VDescribed d v))); [apply st_decode, ds_descriptor|].
  intros d. apply (st_bind true [fmt] (decode rec md) (fun v j => Ok (j, VDescribed d v))); [now apply st_decode|intros; apply st_ret].
Qed.
Lemma ds_fuel f : dsteady (variant_dec_fuel f).
Proof. induction f as [|f IH]; [intros md fmt; split; [apply core_oof|intros inp e _ [=]]|]. exact (ds_body _ IH). Qed.
Lemma ds_variant : dsteady variant_dec.
Proof.
  intros md fmt. assert (F : forall inp more, variant_dec md inp fmt = variant_dec_fuel (Datatypes.S (length (inp ++ more))) md inp fmt).
  { intros inp more. symmetry. apply variant_dec_fuel_eq. rewrite app_length. lia. }
  assert (G : forall inp more, variant_dec md (inp ++ more) fmt = variant_dec_fuel (Datatypes.S (length (inp ++ more))) md (inp ++ more) fmt) by reflexivity.
  split; [constructor|].
  - intros inp rest v E. exact (co_shrinks (proj1 (ds_fuel _ md fmt)) inp rest v E).
  - intros _ inp rest v more E. rewrite (F inp more) in E. rewrite G. now apply (co_extends (proj1 (ds_fuel _ md fmt)) eq_refl inp).
  - intros inp more E. rewrite (F inp more) in *. rewrite G. now apply (co_lasts (proj1 (ds_fuel _ md fmt)) inp more).
  - intros inp o E. pose proof E as E0. destruct (co_waits (proj1 (ds_fuel _ md fmt)) inp o E) as (n & -> & Hn & _). exists n. split; [reflexivity|]. split; [exact Hn|].
    intros more rest v E1. rewrite (F inp more) in E0. rewrite G in E1. destruct (co_waits (proj1 (ds_fuel _ md fmt)) inp _ E0) as (m & [= <-] & _ & W). eauto.
  - intros inp e Hb E. exact (proj2 (ds_fuel _ md fmt) inp e Hb E).
Qed.
Lemma ds_vecmap : dsteady vecmap_dec.
Proof.
  intros md fmt. apply (st_map_like md fmt (vecmap_step (decode str_dec md) (decode variant_dec md)) []). intros acc. unfold vecmap_step.
  apply (st_bind true [fmt] (decode str_dec md) (fun k i => '(j, v) <- decode variant_dec md i ;; Ok (j, acc ++ [(k, v)]))).
  - apply st_decode, ds_str.
  - intros k. apply (st_bind true [fmt] (decode variant_dec md) (fun v j => Ok (j, acc ++ [(k, v)]))); [apply st_decode, ds_variant|]. intros v. apply st_ret.
Qed.
Lemma ds_language {T} (S : tspec T) L : language S L -> dsteady (s_dec S).
Proof.
  intros H. induction H.
  1: exact ds_bool. 1: exact ds_u8. 1: exact ds_u16. 1: exact ds_u32. 1: exact ds_u64. 1: exact ds_i8. 1: exact ds_i16. 1: exact ds_i32. 1: exact ds_i64.
  1: exact ds_f32. 1: exact ds_f64. 1: exact ds_char. 1: exact ds_datetime. 1: exact ds_uuid. 1: exact ds_bin. 1: exact ds_bstr. 1: exact ds_str. 1: exact ds_symbol.
  1: exact ds_role. 1: exact ds_sender_settle_mode. 1: exact ds_receiver_settle_mode. 1: exact ds_sasl_code. 1: exact ds_terminus_durability.
  1: exact ds_terminus_expiry_policy. 1: exact ds_amqp_error. 1: exact ds_connection_error. 1: exact ds_session_error. 1: exact ds_link_error.
  1: exact ds_error_condition. 1: exact ds_distribution_mode. 1: exact ds_message_id.
  exact (ds_option _ IHlanguage).
Qed.

(** ** Composites and unions *)
Definition owed (d : descriptor) (e : perr) : Prop :=
  match e with
  | EInvalidDescriptor d' => d' = d
  | ERequiredFieldOmitted name => exists code type names, In (code, type, names) mandatory_fields /\ In name names /\ named code type d = true
  | _ => False
  end.
Definition selects (b : bool) {T} (sel : descriptor -> bytes -> res (bytes * T)) : Prop := forall d, core b (sel d) /\
  forall inp e, bytes_ok inp -> sel d inp = Err e -> says inp e \/ owed d e.
Lemma says_empty inp e : says_in [] inp e <-> says inp e.
Proof. destruct e; cbn [says_in says In]; tauto. Qed.
Lemma said cx inp e : says inp e -> says_in cx inp e.
Proof. destruct e; cbn [says_in says]; auto. Qed.
Lemma named_wire code type d label : named code type d = true -> wire_descriptor d label -> wire_label code type label.
Proof.
  intros N W. destruct W as [v bs W|t bs W]; cbn [named str_bytes] in N.
  - left. apply Z.eqb_eq in N. now subst.
  - right. apply bytes_eqb_eq in N. now subst.
Qed.
Lemma st_labelled b cx {T} md (sel : descriptor -> bytes -> res (bytes * T)) : selects b sel ->
  steady b cx (fun inp => '(i, d) <- decode descriptor_dec md inp ;; sel d i).
Proof.
  intros H. pose proof (st_decode cx _ md ds_descriptor) as [C S]. split.
  - apply (core_bind b (decode descriptor_dec md) sel); [exact C|intros d; apply H].
  - intros inp e Hb E. destruct (decode descriptor_dec md inp) as [[i d]|e1|p|] eqn:E1; cbn [bind] in E; try discriminate.
    + destruct (descriptor_read md inp i d Hb E1) as (label & -> & W). apply bytes_ok_app in Hb as [_ Hb].
      assert (P : part label (label ++ i)) by now exists [], i.
      destruct (proj2 (H d) i e Hb E) as [HS|HO].
      * apply (says_tail [] cx i label); [easy|]. now apply says_empty.
      * apply said. destruct e; cbn [owed] in HO; try destruct HO; cbn [says].
        -- subst. now exists label.
        -- destruct H0 as (type & names & H1 & H2 & H3). exists x, type, names, label. repeat split; auto. eapply named_wire; eauto.
    + injection E as <-. now apply S.
Qed.
Lemma select_one b {T U} code type (f : T -> U) (inner : bytes -> res (bytes * T)) (other : descriptor -> bytes -> res (bytes * U)) :
  core b inner -> (forall inp e, bytes_ok inp -> inner inp = Err e -> says inp e \/ exists name names, e = ERequiredFieldOmitted name /\
    In (code, type, names) mandatory_fields /\ In name names) -> selects b other ->
  selects b (fun d inp => if named code type d then map_res f (inner inp) else other d inp).
Proof.
  intros C S O d. destruct (named code type d) eqn:N; [|apply O]. split; [now apply core_map|]. intros inp e Hb E. unfold map_res in E.
  destruct (inner inp) as [[i x]|e1|p|] eqn:E1; cbn [bind] in E; try discriminate. injection E as <-. destruct (S inp e1 Hb E1) as [H|(name & names & -> & H1 & H2)]; [now left|].
  right. exists code, type, names. auto.
Qed.
Lemma select_none_of b {T} : selects b (fun d (_ : bytes) => @Err (bytes * T) (EInvalidDescriptor d)).
Proof. intros d. split; [apply core_err; exact I|]. intros inp e _ [= <-]. now right. Qed.

(** Lists of fields. *)
Definition fields_law {R} (F : fields R) : Prop := forall md i n,
  (forall o, dec_fields F md (i, n) = Err (EIncomplete o) -> exists m, o = Some m /\ 1 <= m) /\
  (forall e, bytes_ok i -> dec_fields F md (i, n) = Err e -> says i e \/ exists name, e = ERequiredFieldOmitted name /\ In name (mandatory F)).
Definition field_law {T} (names : list string) (f : mode -> field_state -> res (field_state * T)) : Prop := forall md i n,
  (forall o, f md (i, n) = Err (EIncomplete o) -> exists m, o = Some m /\ 1 <= m) /\
  (forall e, bytes_ok i -> f md (i, n) = Err e -> says i e \/ exists name, e = ERequiredFieldOmitted name /\ In name names) /\
  (forall j m x, f md (i, n) = Ok ((j, m), x) -> exists p, i = p ++ j).
Lemma field_then {T R U} names (f : mode -> field_state -> res (field_state * T)) (F : fields R) (g : T -> R -> U) all : field_law names f -> fields_law F ->
  incl names all -> incl (mandatory F) all -> forall md i n,
  let r := ('(s1, x) <- f md (i, n) ;; '(s2, a) <- dec_fields F md s1 ;; Ok (s2, g x a)) in
  (forall o, r = Err (EIncomplete o) -> exists m, o = Some m /\ 1 <= m) /\
  (forall e, bytes_ok i -> r = Err e -> says i e \/ exists name, e = ERequiredFieldOmitted name /\ In name all).
Proof.
  intros L LF I1 I2 md i n. destruct (L md i n) as (L1 & L2 & L3). cbv zeta. destruct (f md (i, n)) as [[[j m] x]|e1|p|]; cbn [bind]; try easy.
  - destruct (L3 j m x eq_refl) as [p ->]. destruct (LF md j m) as (F1 & F2). destruct (dec_fields F md (j, m)) as [[s2 a]|e1|q|]; cbn [bind]; try easy. split.
    + intros o [= ->]. now apply F1.
    + intros e Hb [= ->]. apply bytes_ok_app in Hb as [_ Hb]. destruct (F2 e Hb eq_refl) as [H|(name & H1 & H2)]; [left|right; eauto].
      apply says_empty. apply (says_tail [] [] j p); [easy|]. now apply says_empty.
  - split; [intros o [= ->]; now apply L1|]. intros e Hb [= ->]. destruct (L2 e Hb eq_refl) as [H|(name & H1 & H2)]; [now left|right; eauto].
Qed.
Lemma read_field' {T U} (d : dec T) md i (g : T -> U) (n : Z) : dsteady d ->
  let r := ('(j, x) <- decode d md i ;; Ok ((j, n), g x)) in
  (forall o, r = Err (EIncomplete o) -> exists m, o = Some m /\ 1 <= m) /\
  (forall e, bytes_ok i -> r = Err e -> says i e) /\
  (forall j m x, r = Ok ((j, m), x) -> exists p, i = p ++ j).
Proof.
  intros D. destruct (st_decode [] d md D) as [C S]. cbv zeta. destruct (decode d md i) as [[j x]|e1|p|] eqn:E; cbn [bind].
  - split; [discriminate|]. split; [discriminate|]. intros j1 m x1 [= <- _ _]. exact (co_shrinks C _ _ _ E).
  - split; [|split; [|discriminate]].
    + intros o [= ->]. destruct (co_waits C _ _ E) as (m & -> & Hm & _). eauto.
    + intros e Hb [= <-]. apply says_empty. now apply S.
  - split; [|split]; discriminate.
  - split; [|split]; discriminate.
Qed.
Lemma req_law {T} name (S : tspec T) : dsteady (s_dec S) -> field_law [name] (req_field name (s_codec S)).
Proof.
  intros D md i n. unfold req_field. destruct (0 <? n).
  - destruct (read_field' (s_dec S) md i (fun x => x) (n - 1) D) as (H1 & H2 & H3). split; [exact H1|]. split; [|exact H3]. intros e Hb E. left. now apply H2.
  - split; [discriminate|]. split; [|discriminate]. intros e _ [= <-]. right. exists name. split; [reflexivity|now left].
Qed.
Lemma opt_law {T} (S : tspec T) : dsteady (s_dec S) -> field_law [] (opt_field (s_codec S)).
Proof.
  intros D md i n. unfold opt_field. destruct (0 <? n).
  - destruct (read_field' (option_dec (s_dec S)) md i (fun x => x) (n - 1) (ds_option _ D)) as (H1 & H2 & H3). split; [exact H1|]. split; [|exact H3]. intros e Hb E. left. now apply H2.
  - split; [discriminate|]. split; [discriminate|]. intros j m x [= <- _ _]. now exists [].
Qed.
Lemma def_law {T} (S : tspec T) dflt : dsteady (s_dec S) -> field_law [] (def_field (s_codec S) dflt).
Proof.
  intros D md i n. unfold def_field. destruct (0 <? n).
  - destruct (read_field' (option_dec (s_dec S)) md i (fun x => match x with Some y => y | None => dflt end) (n - 1) (ds_option _ D)) as (H1 & H2 & H3).
    split; [exact H1|]. split; [|exact H3]. intros e Hb E. left. now apply H2.
  - split; [discriminate|]. split; [discriminate|]. intros j m x [= <- _ _]. now exists [].
Qed.

(** A list whose fields are read from exactly its bytes. *)
Lemma open_law {R U} (F : fields R) (k : R -> U) md : fields_law F ->
  let r := fun inp => '(s, rem) <- open_list md inp ;; '(_, a) <- dec_fields F md s ;; Ok (rem, k a) in
  core true r /\ forall inp e, bytes_ok inp -> r inp = Err e -> says inp e \/ exists name, e = ERequiredFieldOmitted name /\ In name (mandatory F).
Proof.
  intros L r. set (f := fun h w => '(_, a) <- dec_fields F md (w, ch_count h) ;; Ok (k a)).
  assert (E : forall inp, r inp = ('(i, h) <- decode (fun md i c => decode_list_header md i c) md inp ;; _ <- check_len i (ch_size h) ;; x <- f h (ztake (ch_size h) i) ;; Ok (zdrop (ch_size h) i, x))).
  { intros inp. unfold r, open_list, decode. destruct (decode_format_code inp) as [[i c]|?|?|]; cbn [bind]; try reflexivity.
    destruct (decode_list_header md i c) as [[j h]|?|?|]; cbn [bind]; try reflexivity. destruct (check_len j (ch_size h)); cbn [bind]; try reflexivity.
    unfold f. destruct (dec_fields F md _) as [[]|?|?|]; reflexivity. }
  assert (C : forall h, counts (f h)).
  { intros h w o. unfold f. destruct (L md w (ch_count h)) as [L1 _]. destruct (dec_fields F md (w, ch_count h)) as [[]|?|?|]; try discriminate. intros [= ->]. now apply L1. }
  assert (H : steady true [] (decode (fun md i c => decode_list_header md i c) md)) by (apply st_decode; intros md' c; apply st_list_header).
  split.
  - apply (core_ext true (fun inp => '(i, h) <- decode (fun md i c => decode_list_header md i c) md inp ;; _ <- check_len i (ch_size h) ;; x <- f h (ztake (ch_size h) i) ;; Ok (zdrop (ch_size h) i, x))); [intros inp; symmetry; apply E|].
    apply (core_bind true _ (fun h i => _ <- check_len i (ch_size h) ;; x <- f h (ztake (ch_size h) i) ;; Ok (zdrop (ch_size h) i, x))); [apply H|]. intros h. apply core_window, C.
  - intros inp e Hb. rewrite E. destruct (decode _ md inp) as [[i h]|e1|p|] eqn:E1; cbn [bind]; try discriminate.
    + destruct (co_shrinks (proj1 H) _ _ _ E1) as [p ->]. apply bytes_ok_app in Hb as [_ Hb]. unfold check_len. destruct (Z.ltb_spec (zlen i) (ch_size h)); cbn [bind].
      * intros [= <-]. left. exists (ch_size h). pose proof (zlen_nonneg i). split; [reflexivity|lia].
      * unfold f. destruct (L md (ztake (ch_size h) i) (ch_count h)) as [_ L2]. destruct (dec_fields F md _) as [[]|e1|?|]; try discriminate. intros [= ->].
        destruct (L2 e (bytes_ok_ztake _ _ Hb) eq_refl) as [HS|HN]; [left|now right].
        rewrite <- (ztake_zdrop (ch_size h) i). apply says_empty. apply (says_part []); [easy|]. now apply says_empty.
    + intros [= <-]. left. apply says_empty. now apply (proj2 H).
Qed.

Definition inner_law (b : bool) {T} (D : dspec T) : Prop := forall md, core b (d_inner D md) /\
  forall inp e, bytes_ok inp -> d_inner D md inp = Err e -> says inp e \/
    exists name names, e = ERequiredFieldOmitted name /\ In (d_code D, d_name D, names) mandatory_fields /\ In name names.
Definition union_law (b : bool) {T} (alts : list (alternative T)) : Prop := forall md, selects b (union_select alts md).
Lemma union_cons b {T} (a : alternative T) r : inner_law b (a_D a) -> union_law b r -> union_law b (a :: r).
Proof.
  intros I U md. intros d. pose proof (select_one b (d_code (a_D a)) (d_name (a_D a)) (a_inj a) (d_inner (a_D a) md) (union_select r md)) as S.
  specialize (S (proj1 (I md)) (proj2 (I md)) (U md) d). exact S.
Qed.
Lemma run_steady (E : forall T, tspec T -> Prop) :
  (forall T (S : tspec T) D, runs E S D -> dsteady (s_dec S)) /\
  (forall R (F : fields R) D, field_runs E F D -> fields_law F) /\
  (forall T (S : dspec T) D, inner_runs E S D -> inner_law true S) /\
  (forall T (alts : list (alternative T)) D, union_runs E alts D -> union_law true alts).
Proof.
  apply runs_mutind.
  - intros T S L H. exact (ds_language S L H).
  - exact ds_variant.
  - apply ds_list, ds_variant.
  - exact ds_vecmap.
  - intros T S D _ IH _. now apply ds_option.
  - intros K V KO SK SV DK DV _ HK _ HV. now apply ds_map.
  - intros T A width S D _ _ _ IH. now apply ds_vec.
  - intros T A width S D _ _ _ _ _ IH. now apply ds_multiple.
  - intros K D HK _ IH md fmt. apply (st_ext true [fmt] (fun inp => composite_dec (k_code K) (k_name K) (k_inner K) md inp fmt)); [intros inp; symmetry; now rewrite (composite_dec_eq K HK)|].
    unfold composite_dec. apply st_validate; [now left|].
    apply (st_labelled true [fmt] md (fun d inp => if named (k_code K) (k_name K) d then k_inner K md inp else Err (EInvalidDescriptor d))).
    pose proof (select_one true (k_code K) (k_name K) (fun x => x) (k_inner K md) (fun d _ => Err (EInvalidDescriptor d)) (proj1 (IH md)) (proj2 (IH md)) (select_none_of true)) as S.
    intros d. specialize (S d). cbv beta in S. destruct (named (k_code K) (k_name K) d); [|exact S]. destruct S as [S1 S2].
    assert (X : forall inp, map_res (fun x => x) (k_inner K md inp) = k_inner K md inp) by (intros inp; unfold map_res; now destruct (k_inner K md inp) as [[]|?|?|]).
    split; [exact (core_ext true _ _ X S1)|]. intros inp e. rewrite <- X. apply S2.
  - intros T S alts D U _ IH md fmt. apply (st_ext true [fmt] (fun inp => _ <- validate_code fmt FC_DESCRIBED ;; '(i, d) <- decode descriptor_dec md inp ;; union_select alts md d i)).
    { intros inp. symmetry. exact (union_dec_eq S alts U md inp fmt). }
    apply st_validate; [now left|]. apply st_labelled. apply IH.
  - intros md i n. split; discriminate.
  - intros T R name S r D DR _ IH _ IHr md i n. exact (field_then [name] _ r (fun x a => (x, a)) (name :: mandatory r) (req_law name S IH) IHr
      ltac:(intros x [<-|[]]; now left) ltac:(intros x Hx; now right) md i n).
  - intros T R name S r D DR _ IH _ IHr md i n. exact (field_then [] _ r (fun x a => (x, a)) (mandatory r) (opt_law S IH) IHr (incl_nil_l _) (incl_refl _) md i n).
  - intros T R name S dflt r D DR _ IH _ IHr md i n. exact (field_then [] _ r (fun x a => (x, a)) (mandatory r) (def_law S dflt IH) IHr (incl_nil_l _) (incl_refl _) md i n).
  - intros K D HK _ IH md. destruct (all_composites_ok K HK) as [TR _]. destruct (open_law (k_fields K) (k_of K) md IH) as [C S].
    assert (X : forall inp, ('(s, rem) <- open_list md inp ;; '(_, a) <- dec_fields (k_fields K) md s ;; Ok (rem, k_of K a)) = d_inner (composite_D K) md inp).
    { intros inp. cbn [d_inner composite_D]. rewrite (tr_inner K TR). apply bind_ext. intros [s rem]. now rewrite dec_fields_k_eq. }
    split; [exact (core_ext true _ _ X C)|]. intros inp e Hb. rewrite <- X. intros HE. destruct (S inp e Hb HE) as [H|(name & H1 & H2)]; [now left|].
    right. exists name, (mandatory (k_fields K)). split; [exact H1|]. split; [|exact H2]. unfold mandatory_fields. apply in_or_app. left. apply in_map_iff. now exists K.
  - intros T code name S size enc inner D HI _ IH md. destruct (st_decode [] _ md IH) as [C H]. cbn [d_inner section_D]. split.
    + apply (core_ext true (decode (s_dec S) md)); [intros inp; symmetry; apply HI|exact C].
    + intros inp e Hb. rewrite HI. intros HE. left. apply says_empty. now apply H.
  - intros T md. apply (select_none_of true).
  - intros T a r D DR _ IH _ IHr. now apply union_cons.
Qed.

(** ** Frames *)
Lemma transfer_law (E : forall T, tspec T -> Prop) D : field_runs E transfer_table D -> inner_law false transfer_D.
Proof.
  intros FR md. apply (run_steady E) in FR. destruct (open_law transfer_table (fun a => a) md FR) as [C S].
  assert (X : forall inp, ('(s, rem) <- open_list md inp ;; '(_, a) <- dec_fields transfer_table md s ;; Ok (rem, a)) = head_inner md inp).
  { intros inp. unfold head_inner. apply bind_ext. intros [s rem]. now rewrite dec_fields_k_eq. }
  cbn [d_inner transfer_D]. split.
  - apply (core_ext false (fun inp => '(rem, a) <- head_inner md inp ;; Ok ([], transfer_of a (received_payload rem)))); [intros inp; symmetry; apply transfer_inner_eq|].
    apply (core_bind false (head_inner md) (fun a rem => Ok ([], transfer_of a (received_payload rem)))); [exact (core_ext true _ _ X C)|].
    intros a. constructor; try discriminate. intros inp rest v [= <- _]. exists inp. now rewrite app_nil_r.
  - intros inp e Hb. rewrite transfer_inner_eq, <- X. destruct (open_list md inp) as [[s rem]|e1|p|] eqn:E1; cbn [bind]; try discriminate.
    + destruct (dec_fields transfer_table md s) as [[s2 a]|e1|p|] eqn:E2; cbn [bind]; try discriminate. intros [= ->].
      destruct (S inp e Hb) as [H|(name & -> & H2)]; [rewrite E1; cbn [bind]; now rewrite E2|now left|]. right. exists name, (mandatory transfer_table).
      split; [reflexivity|]. split; [|exact H2]. unfold mandatory_fields. apply in_or_app. right. now left.
    + intros [= ->]. left. destruct (S inp e Hb) as [H|(name & -> & H2)]; [now rewrite E1|exact H|]. exfalso.
      unfold open_list in E1. destruct (decode_format_code inp) as [[i c]|e1|p|] eqn:D1; cbn [bind] in E1; try discriminate.
      * destruct (decode_list_header md i c) as [[j h]|e1|p|] eqn:D2; cbn [bind] in E1; try discriminate.
        -- unfold check_len in E1. destruct (_ <? _); discriminate.
        -- injection E1 as ->. unfold decode_list_header, decode_compound8, decode_compound32, check_len in D2.
           repeat match type of D2 with context [if ?b then _ else _] => destruct b end; cbn [bind] in D2; try discriminate.
           ++ destruct i as [|b0 [|b1 r]]; try discriminate. destruct (usub md 8 b0 1) eqn:U; try discriminate. now apply usub_ok in U.
           ++ destruct (usub md 32 _ 4) eqn:U; try discriminate. now apply usub_ok in U.
      * injection E1 as ->. unfold decode_format_code, read_u8, check_len in D1. destruct (_ <? _); cbn [bind] in D1; [discriminate|]. now destruct inp.
Qed.
Lemma inner_weaken {T} (D : dspec T) : inner_law true D -> inner_law false D.
Proof. intros I md. destruct (I md) as [C S]. split; [now apply core_weaken|exact S]. Qed.
Lemma frames_law (E : forall T, tspec T -> Prop) alts D : frame_runs E alts D -> union_law false alts.
Proof.
  intros H. induction H as [|a r D DR P _ IH]; [intros md; apply (select_none_of false)|]. apply union_cons; [|exact IH]. clear IH.
  destruct P as [K D _ H|D H]; [apply inner_weaken; now apply (run_steady E) in H|now apply (transfer_law E) in H].
Qed.
Lemma frame_alts_law : union_law false frame_alts.
Proof. destruct (frames_run any_element any_allows) as [R H]. exact (frames_law _ _ _ H). Qed.
Lemma performative_core md : core false (frame_decode md) /\ forall inp e, bytes_ok inp -> frame_decode md inp = Err e -> says inp e.
Proof.
  assert (F : forall c, steady false [c] (fun r => frame_dec md r c)).
  { intros c. unfold frame_dec. apply st_validate; [now left|]. apply st_labelled. apply frame_alts_law. }
  split; [constructor; [|discriminate|..]|].
  - intros [|c r] rest v E; [injection E as <- _; now exists []|]. rewrite frame_decode_cons in E. destruct (co_shrinks (proj1 (F c)) _ _ _ E) as [p ->]. now exists (c :: p).
  - intros [|c r] more E; [discriminate|]. cbn [app]. rewrite !frame_decode_cons in *. now apply (co_lasts (proj1 (F c))).
  - intros [|c r] o E; [discriminate|]. rewrite frame_decode_cons in E. destruct (co_waits (proj1 (F c)) _ _ E) as (n & -> & Hn & W). exists n.
    split; [reflexivity|]. split; [exact Hn|]. intros more rest v E1. cbn [app] in *. rewrite frame_decode_cons in E1. specialize (W _ _ _ E1). rewrite zlen_cons. lia.
  - intros [|c r] e Hb E; [discriminate|]. rewrite frame_decode_cons in E. inversion Hb; subst. apply says_empty. apply (says_tail [c] [] r [c]); [|now apply (proj2 (F c))].
    intros x [<-|[]]. now left.
Qed.
Lemma header_core type : core true (fun inp => decode_frame_header inp type).
Proof.
  set (g := fun a t c d r => if negb (t =? type) then Err (EUnexpectedFrameType t) else if a * 4 <? HEADER_LEN then Err EInvalidSize else
    _ <- check_len (a :: t :: c :: d :: r) (a * 4 - HEADER_LEN + 4) ;; Ok (zdrop (a * 4 - HEADER_LEN + 4) (a :: t :: c :: d :: r), be_val [c; d])).
  assert (S : forall inp, (zlen inp < 4 /\ decode_frame_header inp type = Err (EIncomplete (Some 4))) \/
    exists a t c d r, inp = a :: t :: c :: d :: r).
  { intros [|a [|t [|c [|d r]]]]; try (left; split; [unfold zlen; cbn; lia|reflexivity]). right. now exists a, t, c, d, r. }
  assert (G : forall a t c d r, decode_frame_header (a :: t :: c :: d :: r) type = g a t c d r).
  { intros a t c d r. unfold decode_frame_header. rewrite check_len_true by (rewrite !zlen_cons; pose proof (zlen_nonneg r); lia). reflexivity. }
  constructor.
  - intros inp rest v E. destruct (S inp) as [[_ H]|(a & t & c & d & r & ->)]; [rewrite H in E; discriminate|]. rewrite G in E. unfold g in E.
    destruct (negb _); [discriminate|]. destruct (_ <? _); [discriminate|]. apply bind_ok in E as [u [_ E]]. injection E as <- _. apply zdrop_prefix.
  - intros _ inp rest v more E. destruct (S inp) as [[_ H]|(a & t & c & d & r & ->)]; [rewrite H in E; discriminate|]. rewrite G in E. cbn [app]. rewrite G. unfold g in *.
    destruct (negb _); [discriminate|]. destruct (_ <? _); [discriminate|]. apply bind_ok in E as [u [E1 E]]. apply check_len_ok in E1. injection E as <- <-.
    change (a :: t :: c :: d :: r ++ more) with ((a :: t :: c :: d :: r) ++ more). rewrite check_len_true by (rewrite zlen_app; pose proof (zlen_nonneg more); lia).
    cbn [bind]. now rewrite zdrop_app_le.
  - intros inp more E. destruct (S inp) as [[_ H]|(a & t & c & d & r & ->)]; [rewrite H in E; discriminate|]. rewrite G in *. cbn [app]. rewrite G. unfold g in *.
    destruct (negb _); [reflexivity|]. destruct (_ <? _); [reflexivity|]. unfold check_len in *. destruct (_ <? _); discriminate.
  - intros inp o E. destruct (S inp) as [[L H]|(a & t & c & d & r & ->)].
    + rewrite H in E. injection E as <-. exists 4. split; [reflexivity|]. split; [lia|]. intros more rest v E1. destruct (S (inp ++ more)) as [[_ H1]|(a & t & c & d & r & E2)]; [congruence|].
      rewrite E2 in *. rewrite G in E1. unfold g in E1. destruct (negb _); [discriminate|]. unfold HEADER_LEN in E1. destruct (Z.ltb_spec (a * 4) 8); [discriminate|]. apply bind_ok in E1 as [u [E3 E1]].
      apply check_len_ok in E3. injection E1 as <- _. rewrite zlen_zdrop; lia.
    + rewrite G in E. unfold g in E. destruct (negb _) eqn:N; [discriminate|]. unfold HEADER_LEN in *. destruct (Z.ltb_spec (a * 4) 8) as [|K]; [discriminate|].
      assert (o = Some (a * 4 - 8 + 4)) as ->.
      { unfold check_len in E. destruct (_ <? _); cbn [bind] in E; [now injection E|discriminate]. }
      exists (a * 4 - 8 + 4). split; [reflexivity|]. split; [lia|]. intros more rest v E1. cbn [app] in E1. rewrite G in E1. unfold g in E1. rewrite N in E1.
      destruct (_ <? _); [discriminate|]. unfold HEADER_LEN in E1. apply bind_ok in E1 as [u [E3 E1]]. apply check_len_ok in E3. injection E1 as <- _. cbn [app]. rewrite zlen_zdrop; lia.
Qed.
Lemma header_says type inp e : bytes_ok inp -> decode_frame_header inp type = Err e -> frame_says type inp e.
Proof.
  intros Hb E. unfold decode_frame_header in E. unfold check_len at 1 in E. destruct (Z.ltb_spec (zlen inp) 4); cbn [bind] in E.
  - injection E as <-. exists 4. split; [reflexivity|lia].
  - destruct inp as [|a [|t r]]; try discriminate. cbv zeta in E. destruct (Z.eqb_spec t type) as [->|N]; cbn [negb] in E.
    + unfold HEADER_LEN in E. destruct (Z.ltb_spec (a * 4) 8); [injection E as <-; exists a, r; split; [reflexivity|lia]|].
      unfold check_len in E. destruct (_ <? _); cbn [bind] in E; [|discriminate]. injection E as <-. exists (a * 4 - 8 + 4). split; [reflexivity|lia].
    + injection E as <-. now split.
Qed.
Lemma amqp_core md : core false (amqp_frame_decode md).
Proof.
  apply (core_bind false (fun inp => decode_frame_header inp FRAME_TYPE_AMQP) (fun ch i => map_res (MkAmqpFrame ch) (frame_decode md i))); [apply header_core|].
  intros ch. apply core_map. apply performative_core.
Qed.
Lemma frame_says_part type p i e : says i e -> frame_says type (p ++ i) e.
Proof.
  intros S. assert (says (p ++ i) e) by (apply says_empty; apply (says_tail [] []); [easy|]; now apply says_empty).
  destruct e; try assumption; destruct H.
Qed.
Lemma amqp_says md inp e : bytes_ok inp -> amqp_frame_decode md inp = Err e -> frame_says 0x00 inp e.
Proof.
  intros Hb E. unfold amqp_frame_decode in E. destruct (decode_frame_header inp FRAME_TYPE_AMQP) as [[i ch]|e1|p|] eqn:E1; cbn [bind] in E; try discriminate.
  - destruct (co_shrinks (header_core FRAME_TYPE_AMQP) _ _ _ E1) as [p ->]. apply bytes_ok_app in Hb as [_ Hb].
    destruct (frame_decode md i) as [[j f]|e1|q|] eqn:E2; cbn [bind] in E; try discriminate. injection E as <-. apply frame_says_part. now apply (proj2 (performative_core md)).
  - injection E as <-. now apply header_says.
Qed.
Lemma type_steady {T} (S : tspec T) : amqp_type S -> dsteady (s_dec S).
Proof. intros H. destruct (types_run _ S H) as [D HD]. now apply (run_steady any_element) in HD. Qed.
Lemma sasl_core md : core true (sasl_frame_decode md).
Proof.
  apply (core_bind true (fun inp => decode_frame_header inp FRAME_TYPE_SASL) (fun _ i => map_res MkSaslFrame (decode sasl_frame_body_dec md i))); [apply header_core|].
  intros _. apply core_map. apply (st_decode [] (s_dec sasl_frame_body_S) md). apply type_steady. constructor.
Qed.
Lemma sasl_says md inp e : bytes_ok inp -> sasl_frame_decode md inp = Err e -> frame_says 0x01 inp e.
Proof.
  intros Hb E. unfold sasl_frame_decode in E. destruct (decode_frame_header inp FRAME_TYPE_SASL) as [[i ch]|e1|p|] eqn:E1; cbn [bind] in E; try discriminate.
  - destruct (co_shrinks (header_core FRAME_TYPE_SASL) _ _ _ E1) as [p ->]. apply bytes_ok_app in Hb as [_ Hb].
    destruct (decode sasl_frame_body_dec md i) as [[j f]|e1|q|] eqn:E2; cbn [bind] in E; try discriminate. injection E as <-. apply frame_says_part. apply says_empty.
    apply (proj2 (st_decode [] (s_dec sasl_frame_body_S) md (type_steady _ ty_sasl_frame_body))); assumption.
  - injection E as <-. now apply header_says.
Qed.

(** ** Messages *)
Definition section_steady md : steady true [] (decode section_dec md) := st_decode [] (s_dec section_S) md (type_steady _ ty_section).
Lemma message_loop_lasts md : forall f inp m more f', (length inp < f)%nat -> (length (inp ++ more) < f')%nat -> lasting (message_decode_loop f md m inp) = true ->
  message_decode_loop f' md m (inp ++ more) = message_decode_loop f md m inp.
Proof.
  induction f as [|f IH]; intros inp m more f' L L' H; [lia|]. destruct f' as [|f']; [lia|]. cbn [message_decode_loop] in *.
  destruct (section_steady md) as [C _]. destruct (decode section_dec md inp) as [[rest s]|e|p|] eqn:E; cbn [bind] in *.
  - rewrite (co_extends C eq_refl _ _ _ more E). cbn [bind]. destruct rest as [|c r]; [discriminate|].
    destruct (type_prefix section_S section_type md _ _ _ E) as (p & -> & N). assert (1 <= length p)%nat by (destruct p; [easy|cbn [length]; lia]).
    rewrite !app_length in *. change ((c :: r) ++ more) with (c :: (r ++ more)) at 1. cbv iota. change (c :: r ++ more) with ((c :: r) ++ more).
    apply IH; [lia| |exact H]. rewrite app_length. lia.
  - rewrite (co_lasts C inp more) by now rewrite E. now rewrite E.
  - rewrite (co_lasts C inp more) by now rewrite E. now rewrite E.
  - discriminate.
Qed.
Lemma message_lasts md inp more : lasting (message_decode md inp) = true -> message_decode md (inp ++ more) = message_decode md inp.
Proof. intros H. apply message_loop_lasts; [lia..|exact H]. Qed.
Lemma message_loop_waits md : forall f inp m o, message_decode_loop f md m inp = Err (EIncomplete o) -> exists n, o = Some n /\ 1 <= n /\
  forall more f' rest v, message_decode_loop f' md m (inp ++ more) = Ok (rest, v) -> n <= zlen (inp ++ more).
Proof.
  induction f as [|f IH]; intros inp m o H; [discriminate|]. cbn [message_decode_loop] in H.
  destruct (section_steady md) as [C _]. destruct (decode section_dec md inp) as [[rest s]|e|p|] eqn:E; cbn [bind] in H; try discriminate.
  - destruct rest as [|c r]; [discriminate|]. destruct (IH _ _ _ H) as (n & -> & Hn & W). exists n. split; [reflexivity|]. split; [exact Hn|]. intros more f' rest v E1.
    destruct f' as [|f']; [discriminate|]. cbn [message_decode_loop] in E1. rewrite (co_extends C eq_refl _ _ _ more E) in E1. cbn [bind] in E1. cbn [app] in E1.
    specialize (W more f' rest v E1). destruct (co_shrinks C _ _ _ E) as [p ->]. rewrite <- app_assoc, zlen_app. pose proof (zlen_nonneg p). lia.
  - injection H as ->. destruct (co_waits C _ _ E) as (n & -> & Hn & W). exists n. split; [reflexivity|]. split; [exact Hn|]. intros more f' rest v E1.
    destruct f' as [|f']; [discriminate|]. cbn [message_decode_loop] in E1. apply bind_ok in E1 as [[i s] [E1 _]]. specialize (W _ _ _ E1). pose proof (zlen_nonneg i). lia.
Qed.
Lemma message_waits md inp o : message_decode md inp = Err (EIncomplete o) -> exists n, o = Some n /\ 1 <= n /\
  forall more rest v, message_decode md (inp ++ more) = Ok (rest, v) -> n <= zlen (inp ++ more).
Proof. intros H. destruct (message_loop_waits md _ _ _ _ H) as (n & -> & Hn & W). exists n. split; [reflexivity|]. split; [exact Hn|]. intros more rest v. apply W. Qed.
Lemma message_loop_says md : forall f inp m e, bytes_ok inp -> message_decode_loop f md m inp = Err e -> says inp e.
Proof.
  induction f as [|f IH]; intros inp m e Hb H; [discriminate|]. cbn [message_decode_loop] in H.
  destruct (section_steady md) as [C S]. destruct (decode section_dec md inp) as [[rest s]|e1|p|] eqn:E; cbn [bind] in H; try discriminate.
  - destruct rest as [|c r]; [discriminate|]. destruct (co_shrinks C _ _ _ E) as [p ->]. apply bytes_ok_app in Hb as [_ Hb]. apply says_empty. apply (says_tail [] []); [easy|].
    apply says_empty. now apply (IH _ _ _ Hb H).
  - injection H as <-. apply says_empty. now apply S.
Qed.
Lemma message_says md inp e : bytes_ok inp -> message_decode md inp = Err e -> says inp e.
Proof. apply message_loop_says. Qed.

(** ** Put together *)
Lemma lasting_err {A} e : final e -> lasting (@Err A e) = true.
Proof. destruct e; easy. Qed.
Lemma lasting_panic {A} p : final_panic p -> lasting (@Panic A p) = true.
Proof. destruct p; easy. Qed.
Lemma type_final {T} (S : tspec T) : amqp_type S -> forall md inp more e, decode (s_dec S) md inp = Err e -> final e -> decode (s_dec S) md (inp ++ more) = Err e.
Proof. intros H md inp more e E F. rewrite <- E. apply (co_lasts (proj1 (st_decode [] _ md (type_steady S H)))). rewrite E. now apply lasting_err. Qed.
Lemma type_final_panic {T} (S : tspec T) : amqp_type S -> forall md inp more p, decode (s_dec S) md inp = Panic p -> final_panic p ->
  decode (s_dec S) md (inp ++ more) = Panic p.
Proof. intros H md inp more p E F. rewrite <- E. apply (co_lasts (proj1 (st_decode [] _ md (type_steady S H)))). rewrite E. now apply lasting_panic. Qed.
Lemma type_waits {T} (S : tspec T) : amqp_type S -> forall md inp o, decode (s_dec S) md inp = Err (EIncomplete o) ->
  exists n, o = Some n /\ 1 <= n /\ forall more rest v, decode (s_dec S) md (inp ++ more) = Ok (rest, v) -> n <= zlen (inp ++ more) - zlen rest.
Proof. intros H md inp o. apply (co_waits (proj1 (st_decode [] _ md (type_steady S H)))). Qed.
Lemma core_prefix {T} (r : bytes -> res (bytes * T)) b a c rest v : core b r -> (forall i, r i <> Oof) -> r (a ++ c) = Ok (rest, v) -> (forall i w, r a <> Ok (i, w)) ->
  awaits (r a) (zlen (a ++ c) - zlen rest).
Proof.
  intros C NO E N. destruct (r a) as [[i w]|e|p|] eqn:E1.
  - now destruct (N i w).
  - assert (L : lasting (r a) = false). { destruct (lasting (r a)) eqn:L; [|reflexivity]. rewrite (co_lasts C a c L), E1 in E. discriminate. }
    right. rewrite E1 in L. destruct e; try discriminate. destruct (co_waits C _ _ E1) as (k & -> & Hk & W). exists k. split; [reflexivity|]. split; [exact Hk|]. eauto.
  - left. destruct p; [reflexivity|..]; (rewrite (co_lasts C a c) in E; rewrite E1 in *; [discriminate|reflexivity]).
  - now destruct (NO a).
Qed.
Lemma type_cut {T} (S : tspec T) : amqp_type S -> forall md a b rest v, decode (s_dec S) md (a ++ b) = Ok (rest, v) -> zlen rest < zlen b ->
  awaits (decode (s_dec S) md a) (zlen (a ++ b) - zlen rest).
Proof.
  intros H md a b rest v E L. destruct (st_decode [] _ md (type_steady S H)) as [C _]. apply (core_prefix _ true _ _ _ v); [exact C|intros i; now apply type_total|exact E|].
  intros i w E1. rewrite (co_extends C eq_refl _ _ _ b E1) in E. injection E as <- _. rewrite zlen_app in L. pose proof (zlen_nonneg i). lia.
Qed.
Lemma type_truncated {T} (S : tspec T) : amqp_type S -> forall md v a b, s_valid S v -> s_encodable S v -> s_size S v < 2 ^ 32 -> s_decodable S (s_canon S v) ->
  s_bytes S v = a ++ b -> b <> [] -> awaits (decode (s_dec S) md a) (s_size S v).
Proof.
  intros H md v a b H1 H2 H3 H4 E N. pose proof (type_round_trip S H md v [] H1 H2 H3 H4) as R. rewrite app_nil_r, E in R.
  pose proof (type_cut S H md a b [] _ R) as X. rewrite zlen_nil, Z.sub_0_r in X. rewrite <- E in X.
  assert (L : zlen (s_bytes S v) = s_size S v) by (symmetry; now apply type_size).
  rewrite L in X. apply X. destruct b; [easy|]. rewrite zlen_cons. pose proof (zlen_nonneg b). lia.
Qed.
Lemma amqp_final md inp more e : amqp_frame_decode md inp = Err e -> final e -> amqp_frame_decode md (inp ++ more) = Err e.
Proof. intros E F. rewrite <- E. apply (co_lasts (amqp_core md)). rewrite E. now apply lasting_err. Qed.
Lemma amqp_final_panic md inp more p : amqp_frame_decode md inp = Panic p -> final_panic p -> amqp_frame_decode md (inp ++ more) = Panic p.
Proof. intros E F. rewrite <- E. apply (co_lasts (amqp_core md)). rewrite E. now apply lasting_panic. Qed.
Lemma sasl_final md inp more e : sasl_frame_decode md inp = Err e -> final e -> sasl_frame_decode md (inp ++ more) = Err e.
Proof. intros E F. rewrite <- E. apply (co_lasts (sasl_core md)). rewrite E. now apply lasting_err. Qed.
Lemma sasl_final_panic md inp more p : sasl_frame_decode md inp = Panic p -> final_panic p -> sasl_frame_decode md (inp ++ more) = Panic p.
Proof. intros E F. rewrite <- E. apply (co_lasts (sasl_core md)). rewrite E. now apply lasting_panic. Qed.
Lemma message_final md inp more e : message_decode md inp = Err e -> final e -> message_decode md (inp ++ more) = Err e.
Proof. intros E F. rewrite <- E. apply message_lasts. rewrite E. now apply lasting_err. Qed.
Lemma message_final_panic md inp more p : message_decode md inp = Panic p -> final_panic p -> message_decode md (inp ++ more) = Panic p.
Proof. intros E F. rewrite <- E. apply message_lasts. rewrite E. now apply lasting_panic. Qed.
Lemma type_says {T} (S : tspec T) : amqp_type S -> forall md inp e, bytes_ok inp -> decode (s_dec S) md inp = Err e -> says inp e.
Proof. intros H md inp e Hb E. apply says_empty. now apply (proj2 (st_decode [] _ md (type_steady S H))). Qed.
Lemma truncated_free {T} (S : tspec T) : amqp_type S -> panic_free S -> forall md v a b, s_valid S v -> s_encodable S v -> s_size S v < 2 ^ 32 ->
  s_decodable S (s_canon S v) -> s_bytes S v = a ++ b -> b <> [] -> exists n, decode (s_dec S) md a = Err (EIncomplete (Some n)) /\ 1 <= n <= s_size S v.
Proof. intros H P md v a b H1 H2 H3 H4 E N. destruct (type_truncated S H md v a b H1 H2 H3 H4 E N) as [X|X]; [|exact X]. now apply panic_free_never in X. Qed.
(** A map of no bytes and one entry. *)
Lemma hollow_map md more : decode (s_dec fields_S) md ([0xc1; 1; 2] ++ more) = Err (EIncomplete (Some 1)).
Proof.
  cbn [app]. pose proof (zlen_nonneg more). unfold decode, decode_format_code, read_u8. rewrite check_len_true by (rewrite !zlen_cons; lia). cbn [bind].
  change (s_dec fields_S) with (map_dec str_key symbol_dec variant_dec). unfold map_dec, decode_map_header, decode_compound8. cbn [Z.eqb Pos.eqb FC_MAP8].
  rewrite check_len_true by (rewrite !zlen_cons; lia). cbn [bind]. replace (usub md 8 1 1) with (@Ok Z 0) by now destruct md. cbn [bind ch_size ch_count].
  unfold slice_to. destruct (Z.ltb_spec (zlen more) 0); [lia|]. reflexivity.
Qed.
Lemma amqp_waits md inp o : amqp_frame_decode md inp = Err (EIncomplete o) -> exists n, o = Some n /\ 1 <= n /\
  forall more rest v, amqp_frame_decode md (inp ++ more) = Ok (rest, v) -> n <= zlen (inp ++ more) - zlen rest.
Proof. apply (co_waits (amqp_core md)). Qed.
Lemma sasl_waits md inp o : sasl_frame_decode md inp = Err (EIncomplete o) -> exists n, o = Some n /\ 1 <= n /\
  forall more rest v, sasl_frame_decode md (inp ++ more) = Ok (rest, v) -> n <= zlen (inp ++ more) - zlen rest.
Proof. apply (co_waits (sasl_core md)). Qed.
Lemma alts_extend (E : forall T, tspec T -> Prop) alts R : frame_runs E alts R -> incl alts frame_alts -> forall md d i rest f more,
  union_select alts md d i = Ok (rest, f) -> ~ takes_rest f -> union_select alts md d (i ++ more) = Ok (rest ++ more, f).
Proof.
  intros H. induction H as [|a r D DR P _ IH]; intros Hi md d i rest f more X N; [discriminate|]. cbn [union_select] in *.
  assert (Ha : In a frame_alts) by (apply Hi; now left).
  assert (K : inner_law true (a_D a) \/ d_code (a_D a) = 0x14).
  { clear - P. destruct P as [K D _ H|D H]; [left; now apply (run_steady E) in H|now right]. }
  destruct (matches _ _ d); [|apply IH; auto; intros x Hx; apply Hi; now right].
  apply map_res_ok in X as (x & X & ->). destruct K as [K|K].
  - destruct (K md) as [C _]. rewrite (co_extends C eq_refl _ _ _ more X). reflexivity.
  - destruct N. clear - Ha K. unfold frame_alts in Ha. repeat (destruct Ha as [<-|Ha]; [first [exact I|discriminate K]|]). destruct Ha.
Qed.
Lemma frame_extends md inp rest f more : frame_decode md inp = Ok (rest, f) -> ~ takes_rest f -> frame_decode md (inp ++ more) = Ok (rest ++ more, f).
Proof.
  destruct inp as [|c r]; [intros [= <- <-] N; now destruct N|]. cbn [app]. rewrite !frame_decode_cons. unfold frame_dec. intros E N.
  apply bind_ok in E as [[] [E1 E]]. apply bind_ok in E as [[i d] [E2 E]]. rewrite E1. cbn [bind].
  destruct (decode_lawful _ _ md descriptor_lawful _ _ _ E2) as [(p & -> & Hp) _]. rewrite <- app_assoc, (Hp (i ++ more)). cbn [bind].
  destruct (frames_run any_element any_allows) as [R H]. exact (alts_extend _ _ _ H (incl_refl _) _ _ _ _ _ _ E N).
Qed.
Lemma header_alone type a ch : decode_frame_header a type = Ok ([], ch) -> exists words r, a = words :: r /\ zlen a = 4 * words - 4.
Proof.
  unfold decode_frame_header. intros E. apply bind_ok in E as [[] [_ E]]. destruct a as [|n [|t r]]; try discriminate. cbv zeta in E.
  destruct (negb _); [discriminate|]. unfold HEADER_LEN in E. destruct (Z.ltb_spec (n * 4) 8) as [|L]; [discriminate|].
  apply bind_ok in E as [[] [C E]]. apply check_len_ok in C. injection E as E _. exists n, (t :: r). split; [reflexivity|].
  pose proof (zlen_zdrop (n * 4 - 8 + 4) (n :: t :: r) ltac:(lia)) as H. rewrite E in H. unfold zlen at 1 in H. cbn [length Z.of_nat] in H. lia.
Qed.
Lemma amqp_cut md a b rest v : amqp_frame_decode md (a ++ b) = Ok (rest, v) ->
  (exists i, amqp_frame_decode md a = Ok (i, v) /\ rest = i ++ b) \/ (exists w, amqp_frame_decode md a = Ok ([], w) /\ shortened a w v) \/
  awaits (amqp_frame_decode md a) (zlen (a ++ b) - zlen rest).
Proof.
  intros E. destruct (amqp_frame_decode md a) as [[i w]|e|p|] eqn:E1; [|right; right; rewrite <- E1;
    (apply (core_prefix _ false _ _ _ v); [apply amqp_core|apply amqp_total|exact E|congruence])..].
  unfold amqp_frame_decode in E, E1. apply bind_ok in E1 as [[j ch] [E1 E2]]. apply bind_ok in E2 as [[j2 f] [E2 E3]]. injection E3 as <- <-.
  rewrite (co_extends (header_core FRAME_TYPE_AMQP) eq_refl _ _ _ b E1) in E. cbn [bind] in E. apply bind_ok in E as [[k g] [E E4]]. injection E4 as <- <-.
  destruct f as [t|t|t|t|t|t|t|t|t|] eqn:F; try (left; exists j2; rewrite (frame_extends _ _ _ _ b E2) in E by easy; injection E as <- <-; now split).
  - destruct (transfer_verbatim _ _ _ _ E2) as (-> & hd & -> & X). right. left. eexists. split; [reflexivity|]. split; [reflexivity|]. right.
    rewrite <- app_assoc, (X (transfer_payload t ++ b)) in E. injection E as _ <-. exists (transfer_to t), (transfer_payload t), b.
    cbn [af_performative]. split; [|reflexivity]. rewrite (X (transfer_payload t)) in E2. assert (X2 : forall x y : transfer_t, @Ok (bytes * frame) ([], FR_Transfer x) = Ok ([], FR_Transfer y) -> FR_Transfer y = FR_Transfer x) by (intros x y [= ->]; reflexivity). exact (X2 _ _ E2).
  - right. left. assert (j = []) as ->.
    { destruct j as [|c r]; [reflexivity|]. exfalso. rewrite frame_decode_cons in E2. unfold frame_dec in E2. apply bind_ok in E2 as [[] [_ E2]]. apply bind_ok in E2 as [[i d] [_ E2]].
      revert E2. unfold frame_alts. cbn [union_select a_D a_inj a_X]. do 9 (destruct (matches _ _ d); [intros E2; apply map_res_ok in E2 as (x & _ & X); discriminate X|]). discriminate. }
    injection E2 as <-. eexists. split; [reflexivity|]. split; [reflexivity|]. left. split; [reflexivity|]. exact (header_alone _ _ _ E1).
Qed.
Lemma message_loop_sections md : forall f inp m r v, message_decode_loop f md m inp = Ok (r, v) -> exists ss, ss <> [] /\ v = fold_left message_add_section ss m.
Proof.
  induction f as [|f IH]; intros inp m r v E; [discriminate|]. cbn [message_decode_loop] in E. apply bind_ok in E as [[rest s] [_ E]]. cbv zeta in E.
  destruct rest as [|c t]; [injection E as _ <-; now exists [s]|]. destruct (IH _ _ _ _ E) as (ss & _ & ->). now exists (s :: ss).
Qed.
Lemma message_loop_cut md : forall f a b m f' r v, (length a < f')%nat -> message_decode_loop f md m (a ++ b) = Ok (r, v) ->
  (exists i ss later, message_decode_loop f' md m a = Ok (i, fold_left message_add_section ss m) /\ v = fold_left message_add_section (ss ++ later) m /\ (later = [] <-> b = [])) \/
  awaits (message_decode_loop f' md m a) (zlen (a ++ b)).
Proof.
  induction f as [|f IH]; intros a b m f' r v L E; [discriminate|]. destruct f' as [|f']; [lia|]. cbn [message_decode_loop] in E |- *.
  apply bind_ok in E as [[rest s] [E1 E]]. cbv zeta in E. destruct (section_steady md) as [C _].
  destruct (decode section_dec md a) as [[ra s1]|e|p|] eqn:E2; cbn [bind].
  - rewrite (co_extends C eq_refl _ _ _ b E2) in E1. injection E1 as <- <-. destruct ra as [|c t].
    + left. cbn [app] in E. destruct b as [|c t].
      * injection E as _ <-. exists a, [s1], []. now repeat split.
      * destruct (message_loop_sections _ _ _ _ _ _ E) as (ss & N & ->). exists a, [s1], ss. now repeat split.
    + destruct (type_prefix section_S section_type md _ _ _ E2) as (p & -> & N). assert (1 <= length p)%nat by (destruct p; [easy|cbn [length]; lia]).
      rewrite app_length in L. change ((c :: t) ++ b) with (c :: (t ++ b)) in E. cbv iota in E. change (c :: t ++ b) with ((c :: t) ++ b) in E.
      destruct (IH (c :: t) b (message_add_section m s1) f' _ _ ltac:(cbn [length] in *; lia) E) as [(i & ss & later & H1 & -> & H2)|W].
      * left. exists i, (s1 :: ss), later. now repeat split; try apply H2.
      * right. destruct W as [W|(n & W & Hn)]; [now left|]. right. exists n. split; [exact W|]. rewrite <- app_assoc, zlen_app. pose proof (zlen_nonneg p). lia.
  - right. assert (W : awaits (decode section_dec md a) (zlen (a ++ b) - zlen rest)).
    { apply (core_prefix _ true _ _ _ s); [exact C|intros i; exact (type_total section_S section_type md i)|exact E1|rewrite E2; discriminate]. }
    rewrite E2 in W. destruct W as [W|(n & W & Hn)]; [discriminate W|]. injection W as ->. right. exists n. split; [reflexivity|]. pose proof (zlen_nonneg rest). lia.
  - right. assert (W : awaits (decode section_dec md a) (zlen (a ++ b) - zlen rest)).
    { apply (core_prefix _ true _ _ _ s); [exact C|intros i; exact (type_total section_S section_type md i)|exact E1|rewrite E2; discriminate]. }
    rewrite E2 in W. destruct W as [W|(n & W & Hn)]; [injection W as ->; now left|discriminate W].
  - now destruct (type_total section_S section_type md a).
Qed.
Lemma message_cut md a b r v : message_decode md (a ++ b) = Ok (r, v) ->
  (exists i ss later, message_decode md a = Ok (i, message_of ss) /\ v = message_of (ss ++ later) /\ (later = [] <-> b = [])) \/
  awaits (message_decode md a) (zlen (a ++ b)).
Proof.
  intros E. destruct (message_loop_cut md _ a b _ (S (length a)) _ _ (Nat.lt_succ_diag_r _) E) as [(i & ss & later & H1 & H2 & H3)|H]; [left|now right].
  assert (F : forall l m, fold_left message_add_section l m = add_sections m l).
  { induction l as [|x l IH]; intros m; [now rewrite add_sections_nil|]. now rewrite add_sections_cons, <- IH. }
  rewrite F, add_sections_default in H1, H2. now exists i, ss, later.
Qed.
Lemma sasl_cut md a b rest v : sasl_frame_decode md (a ++ b) = Ok (rest, v) -> zlen rest < zlen b ->
  awaits (sasl_frame_decode md a) (zlen (a ++ b) - zlen rest).
Proof.
  intros E L. apply (core_prefix _ true _ _ _ v); [apply sasl_core|apply sasl_total|exact E|].
  intros i w E1. rewrite (co_extends (sasl_core md) eq_refl _ _ _ b E1) in E. injection E as <- _. rewrite zlen_app in L. pose proof (zlen_nonneg i). lia.
Qed.
