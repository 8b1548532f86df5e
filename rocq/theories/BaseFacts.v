(** Facts about lists, big-endian numbers, equality tests and the result monad. *)

From Verif Require Import Types Decode.
From Coq Require Import ZifyBool.
Ltac Zify.zify_post_hook ::= Z.div_mod_to_equations.

(** ** Lengths, [ztake], [zdrop] *)

Lemma zlen_nil {A} : zlen (@nil A) = 0.
Proof. reflexivity. Qed.
Lemma zlen_cons {A} (x : A) l : zlen (x :: l) = 1 + zlen l.
Proof. unfold zlen. cbn [length]. lia. Qed.
Lemma zlen_app {A} (a b : list A) : zlen (a ++ b) = zlen a + zlen b.
Proof. unfold zlen. rewrite app_length. lia. Qed.
Lemma zlen_nonneg {A} (l : list A) : 0 <= zlen l.
Proof. unfold zlen. lia. Qed.
Lemma zlen_map {A B} (f : A -> B) l : zlen (map f l) = zlen l.
Proof. unfold zlen. now rewrite map_length. Qed.
Lemma zlen_0 {A} (l : list A) : zlen l = 0 -> l = [].
Proof. destruct l; [easy|]. rewrite zlen_cons. pose proof (zlen_nonneg l). lia. Qed.

Ltac zl := rewrite ?zlen_app, ?zlen_cons, ?zlen_nil in *.

Lemma ztake_app {A} n (a b : list A) : zlen a = n -> ztake n (a ++ b) = a.
Proof.
  intros <-. unfold ztake, zlen. rewrite Nat2Z.id.
  rewrite firstn_app, Nat.sub_diag, firstn_all. cbn. apply app_nil_r.
Qed.
Lemma zdrop_app {A} n (a b : list A) : zlen a = n -> zdrop n (a ++ b) = b.
Proof.
  intros <-. unfold zdrop, zlen. rewrite Nat2Z.id.
  rewrite skipn_app, Nat.sub_diag, skipn_all. reflexivity.
Qed.
Lemma ztake_zdrop {A} n (l : list A) : ztake n l ++ zdrop n l = l.
Proof. unfold ztake, zdrop. apply firstn_skipn. Qed.
Lemma zlen_ztake {A} n (l : list A) : 0 <= n <= zlen l -> zlen (ztake n l) = n.
Proof. unfold zlen, ztake. rewrite firstn_length. lia. Qed.
Lemma zlen_zdrop {A} n (l : list A) : 0 <= n <= zlen l -> zlen (zdrop n l) = zlen l - n.
Proof. unfold zlen, zdrop. rewrite skipn_length. lia. Qed.
Lemma zlen_ztake_le {A} n (l : list A) : zlen (ztake n l) <= zlen l.
Proof. unfold zlen, ztake. rewrite firstn_length. lia. Qed.
Lemma zlen_zdrop_le {A} n (l : list A) : zlen (zdrop n l) <= zlen l.
Proof. unfold zlen, zdrop. rewrite skipn_length. lia. Qed.
Lemma ztake_app_le {A} n (a b : list A) : n <= zlen a -> ztake n (a ++ b) = ztake n a.
Proof.
  unfold zlen, ztake. intros H. rewrite firstn_app.
  replace (Z.to_nat n - length a)%nat with O by lia. cbn. apply app_nil_r.
Qed.
Lemma zdrop_app_le {A} n (a b : list A) : n <= zlen a -> zdrop n (a ++ b) = zdrop n a ++ b.
Proof.
  unfold zlen, zdrop. intros H. rewrite skipn_app.
  replace (Z.to_nat n - length a)%nat with O by lia. reflexivity.
Qed.
Lemma ztake_all {A} n (l : list A) : zlen l <= n -> ztake n l = l.
Proof. unfold zlen, ztake. intros. apply firstn_all2. lia. Qed.
Lemma zdrop_all {A} n (l : list A) : zlen l <= n -> zdrop n l = [].
Proof. unfold zlen, zdrop. intros. apply skipn_all2. lia. Qed.
Lemma zdrop_zdrop {A} a b (l : list A) : 0 <= a -> 0 <= b -> zdrop a (zdrop b l) = zdrop (b + a) l.
Proof.
  unfold zdrop. intros Ha Hb. rewrite Z2Nat.inj_add by lia.
  generalize (Z.to_nat b) as n. intros n. clear Hb. revert l.
  induction n as [|n IH]; intros l; [reflexivity|].
  destruct l as [|x l]; cbn; [now rewrite skipn_nil|apply IH].
Qed.
Lemma ztake_0 {A} (l : list A) : ztake 0 l = [].
Proof. reflexivity. Qed.
Lemma zdrop_0 {A} (l : list A) : zdrop 0 l = l.
Proof. reflexivity. Qed.

(** ** Bytes *)

Lemma bytes_ok_app a b : bytes_ok (a ++ b) <-> bytes_ok a /\ bytes_ok b.
Proof. unfold bytes_ok. apply Forall_app. Qed.
Lemma bytes_ok_ztake n l : bytes_ok l -> bytes_ok (ztake n l).
Proof. intros H. rewrite <- (ztake_zdrop n l) in H. now apply bytes_ok_app in H. Qed.
Lemma bytes_ok_zdrop n l : bytes_ok l -> bytes_ok (zdrop n l).
Proof. intros H. rewrite <- (ztake_zdrop n l) in H. now apply bytes_ok_app in H. Qed.

Lemma bytes_eqb_eq a b : bytes_eqb a b = true <-> a = b.
Proof.
  revert b. induction a as [|x a IH]; intros [|y b]; cbn [bytes_eqb]; split; intros H; try easy.
  - apply andb_true_iff in H as [H1 H2]. apply Z.eqb_eq in H1. apply IH in H2. now subst.
  - injection H as -> ->. rewrite Z.eqb_refl. now apply IH.
Qed.
Lemma bytes_eqb_refl a : bytes_eqb a a = true.
Proof. now apply bytes_eqb_eq. Qed.
Lemma bytes_eqb_sym a b : bytes_eqb a b = bytes_eqb b a.
Proof.
  destruct (bytes_eqb a b) eqn:E; symmetry.
  - apply bytes_eqb_eq in E. subst. apply bytes_eqb_refl.
  - destruct (bytes_eqb b a) eqn:E'; [|easy]. apply bytes_eqb_eq in E'. subst.
    now rewrite bytes_eqb_refl in E.
Qed.

(** ** Big-endian numbers *)

Lemma be_bytes_length n v : length (be_bytes n v) = n.
Proof. revert v; induction n as [|n IH]; intros v; cbn [be_bytes]; [easy|]. rewrite app_length, IH. cbn. lia. Qed.
Lemma zlen_be_bytes n v : zlen (be_bytes n v) = Z.of_nat n.
Proof. unfold zlen. now rewrite be_bytes_length. Qed.
Lemma be_bytes_ok n v : bytes_ok (be_bytes n v).
Proof.
  revert v; induction n as [|n IH]; intros v; cbn [be_bytes]; [constructor|].
  apply bytes_ok_app. split; [apply IH|]. constructor; [|constructor]. unfold byte_ok.
  apply Z.mod_pos_bound. lia.
Qed.
Lemma be_val_snoc l x : be_val (l ++ [x]) = be_val l * 256 + x.
Proof. unfold be_val. now rewrite fold_left_app. Qed.
Lemma pow256_S n : 256 ^ Z.of_nat (S n) = 256 * 256 ^ Z.of_nat n.
Proof. rewrite Nat2Z.inj_succ, Z.pow_succ_r; lia. Qed.
Lemma pow256_pos n : 0 < 256 ^ Z.of_nat n.
Proof. apply Z.pow_pos_nonneg; lia. Qed.
Lemma be_val_be_bytes n v : be_val (be_bytes n v) = v mod 256 ^ Z.of_nat n.
Proof.
  revert v; induction n as [|n IH]; intros v.
  - cbn. rewrite Z.mod_1_r. reflexivity.
  - cbn [be_bytes]. rewrite be_val_snoc, IH, pow256_S.
    pose proof (pow256_pos n).
    rewrite Z.rem_mul_r by lia. lia.
Qed.
Lemma be_val_range l : bytes_ok l -> 0 <= be_val l < 256 ^ zlen l.
Proof.
  induction l as [|x l IH] using rev_ind; intros H.
  - cbn. lia.
  - apply bytes_ok_app in H as [H1 H2]. inversion H2 as [|? ? Hx _]; subst. unfold byte_ok in Hx.
    rewrite be_val_snoc. rewrite zlen_app. change (zlen [x]) with 1.
    rewrite Z.pow_add_r by (pose proof (zlen_nonneg l); lia).
    specialize (IH H1). lia.
Qed.
Lemma be_bytes_be_val l : bytes_ok l -> be_bytes (length l) (be_val l) = l.
Proof.
  induction l as [|x l IH] using rev_ind; intros H; [easy|].
  apply bytes_ok_app in H as [H1 H2]. inversion H2 as [|? ? Hx _]; subst. unfold byte_ok in Hx.
  rewrite app_length. cbn [length]. rewrite Nat.add_1_r. cbn [be_bytes]. rewrite be_val_snoc.
  replace ((be_val l * 256 + x) / 256) with (be_val l) by lia.
  replace ((be_val l * 256 + x) mod 256) with x by lia.
  now rewrite IH.
Qed.
Lemma be_bytes_1 v : be_bytes 1 v = [v mod 256].
Proof. reflexivity. Qed.

Lemma to_signed_mod k v : 0 < k -> - 2 ^ (k - 1) <= v < 2 ^ (k - 1) -> to_signed k (v mod 2 ^ k) = v.
Proof.
  intros Hk Hv. unfold to_signed.
  assert (E : 2 ^ k = 2 * 2 ^ (k - 1)).
  { rewrite <- Z.pow_succ_r by lia. f_equal. lia. }
  assert (0 < 2 ^ (k - 1)) by (apply Z.pow_pos_nonneg; lia).
  destruct (Z_lt_le_dec v 0) as [Hn|Hp].
  - replace (v mod 2 ^ k) with (v + 2 ^ k).
    + destruct (Z.ltb_spec (v + 2 ^ k) (2 ^ (k - 1))); lia.
    + apply (Z.mod_unique_pos _ _ (-1)); lia.
  - rewrite Z.mod_small by lia. destruct (Z.ltb_spec v (2 ^ (k - 1))); lia.
Qed.
Lemma to_signed_range k v : 0 < k -> 0 <= v < 2 ^ k -> - 2 ^ (k - 1) <= to_signed k v < 2 ^ (k - 1).
Proof.
  intros Hk Hv. unfold to_signed.
  assert (E : 2 ^ k = 2 * 2 ^ (k - 1)).
  { rewrite <- Z.pow_succ_r by lia. f_equal. lia. }
  destruct (Z.ltb_spec v (2 ^ (k - 1))); lia.
Qed.

(** ** The result monad *)

Lemma bind_ok {A B} (x : res A) (f : A -> res B) y : bind x f = Ok y -> exists a, x = Ok a /\ f a = Ok y.
Proof. destruct x; cbn; intros H; try discriminate. eauto. Qed.
Lemma map_res_ok {A B} (f : A -> B) x r y : map_res f x = Ok (r, y) -> exists a, x = Ok (r, a) /\ y = f a.
Proof. unfold map_res. intros H. apply bind_ok in H as [[i o] [H1 H2]]. injection H2 as <- <-. eauto. Qed.
Lemma check_len_ok inp n u : check_len inp n = Ok u -> n <= zlen inp.
Proof. unfold check_len. destruct (Z.ltb_spec (zlen inp) n); [discriminate|lia]. Qed.
Lemma check_len_true inp n : n <= zlen inp -> check_len inp n = Ok tt.
Proof. unfold check_len. destruct (Z.ltb_spec (zlen inp) n); [lia|easy]. Qed.
Lemma validate_code_ok fmt c u : validate_code fmt c = Ok u -> fmt = c.
Proof. unfold validate_code. destruct (Z.eqb_spec fmt c); easy. Qed.

(** Loops by counting in unary. *)
Fixpoint iter_res {S} (n : nat) (f : S -> res S) (s : S) : res S :=
  match n with
  | O => Ok s
  | Datatypes.S k => s1 <- f s ;; iter_res k f s1
  end.
Lemma iter_res_add {S} a b (f : S -> res S) s :
  iter_res (a + b) f s = (s1 <- iter_res a f s ;; iter_res b f s1).
Proof.
  revert s. induction a as [|a IH]; intros s; [reflexivity|].
  cbn. destruct (f s); cbn; auto.
Qed.
Lemma loop_pos_iter {S} p (f : S -> res S) s : loop_pos p f s = iter_res (Pos.to_nat p) f s.
Proof.
  revert s. induction p as [p IH|p IH|]; intros s; cbn [loop_pos].
  - rewrite Pos2Nat.inj_xI.
    replace (Datatypes.S (2 * Pos.to_nat p)) with (1 + (Pos.to_nat p + Pos.to_nat p))%nat by lia.
    cbn [Nat.add iter_res]. destruct (f s); cbn [bind]; auto.
    rewrite iter_res_add, IH. destruct (iter_res (Pos.to_nat p) f a); cbn [bind]; auto.
  - rewrite Pos2Nat.inj_xO.
    replace (2 * Pos.to_nat p)%nat with (Pos.to_nat p + Pos.to_nat p)%nat by lia.
    rewrite iter_res_add, IH. destruct (iter_res (Pos.to_nat p) f s); cbn [bind]; auto.
  - change (Pos.to_nat 1) with 1%nat. cbn. destruct (f s); reflexivity.
Qed.
Lemma loop_n_iter {S} n (f : S -> res S) s : loop_n n f s = iter_res (Z.to_nat n) f s.
Proof. destruct n as [|p|p]; cbn [loop_n Z.to_nat]; [easy| |easy]. apply loop_pos_iter. Qed.

Lemma iter_res_inv {S} (I : S -> Prop) n f s s' :
  (forall a b, I a -> f a = Ok b -> I b) -> I s -> iter_res n f s = Ok s' -> I s'.
Proof.
  intros Hf. revert s. induction n as [|n IH]; intros s Hs H; cbn in H.
  - now injection H as <-.
  - apply bind_ok in H as (a & H1 & H2). eauto.
Qed.

(** [zsum] *)
Lemma zsum_app {A} (f : A -> Z) a b : zsum f (a ++ b) = zsum f a + zsum f b.
Proof. induction a as [|x a IH]; cbn [zsum app]; [lia|]. rewrite IH. lia. Qed.
Lemma zsum_nonneg {A} (f : A -> Z) l : (forall x, In x l -> 0 <= f x) -> 0 <= zsum f l.
Proof.
  induction l as [|x l IH]; cbn [zsum]; intros H; [lia|].
  specialize (IH (fun y Hy => H y (or_intror Hy))). specialize (H x (or_introl eq_refl)). lia.
Qed.
Lemma zsum_ge {A} (f : A -> Z) l k : (forall x, In x l -> k <= f x) -> k * zlen l <= zsum f l.
Proof.
  induction l as [|x l IH]; cbn [zsum]; intros H; [rewrite zlen_nil; lia|].
  specialize (IH (fun y Hy => H y (or_intror Hy))). specialize (H x (or_introl eq_refl)).
  rewrite zlen_cons. lia.
Qed.
Lemma zsum_ext {A} (f g : A -> Z) l : (forall x, In x l -> f x = g x) -> zsum f l = zsum g l.
Proof.
  induction l as [|x l IH]; cbn [zsum]; intros H; [lia|].
  rewrite (H x (or_introl eq_refl)), IH; [easy|]. intros; apply H; now right.
Qed.
Lemma zsum_in {A} (f : A -> Z) l x : (forall y, In y l -> 0 <= f y) -> In x l -> f x <= zsum f l.
Proof.
  induction l as [|y l IH]; cbn [zsum]; intros H Hx; [easy|].
  assert (H' : forall z, In z l -> 0 <= f z) by (intros; apply H; now right).
  destruct Hx as [->|Hx].
  - pose proof (zsum_nonneg f l H'). lia.
  - specialize (IH H' Hx). specialize (H y (or_introl eq_refl)). lia.
Qed.

(** ** Writes *)
Lemma wbytes_app a b : wbytes (a ++ b) = wbytes a ++ wbytes b.
Proof. unfold wbytes. apply flat_map_app. Qed.
Lemma wbytes_cons a b : wbytes (a :: b) = wop_bytes a ++ wbytes b.
Proof. reflexivity. Qed.
Lemma wbytes_nil : wbytes [] = [].
Proof. reflexivity. Qed.
Lemma wbytes_flat_map {A} (f : A -> list wop) l : wbytes (flat_map f l) = flat_map (fun x => wbytes (f x)) l.
Proof. induction l as [|x l IH]; cbn [flat_map]; [easy|]. now rewrite wbytes_app, IH. Qed.
Lemma zlen_flat_map {A B} (f : A -> list B) l : zlen (flat_map f l) = zsum (fun x => zlen (f x)) l.
Proof. induction l as [|x l IH]; cbn [flat_map zsum]; [easy|]. now rewrite zlen_app, IH. Qed.
