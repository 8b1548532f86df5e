(** Facts about deliveries. *)

From Coq Require Import String Lia.
From Verif Require Import Connection BaseFacts Utf8Spec Valid Wire TypeSpec CompositeSpec AllTypes CodecSpec MessageSpec MessageFacts FrameSpec FrameFacts FramingFacts StreamSpec ConnectionSpec ConnectionFacts BoundSpec BoundFacts BuilderFacts FrameRelayFacts DeliverySpec.
Open Scope list_scope.
Open Scope Z_scope.

(** ** What is received *)
Lemma transfers_cons c h f fs : transfers c h (f :: fs) = on_link c h f ++ transfers c h fs.
Proof. reflexivity. Qed.

Definition transfer_canon (t : transfer_t) : transfer_t := d_canon transfer_D t.
Lemma canon_transfer t : frame_canon (FR_Transfer t) = FR_Transfer (transfer_canon t).
Proof. reflexivity. Qed.
Lemma canon_handle t : transfer_handle (transfer_canon t) = transfer_handle t.
Proof. destruct t. reflexivity. Qed.
Lemma canon_more t : transfer_more (transfer_canon t) = transfer_more t.
Proof. destruct t. reflexivity. Qed.
Lemma canon_aborted t : transfer_aborted (transfer_canon t) = transfer_aborted t.
Proof. destruct t. reflexivity. Qed.
Lemma canon_body t : match transfer_body_f (transfer_canon t) with Some (TBData b) => b | _ => [] end = transfer_payload t.
Proof. change (transfer_body_f (transfer_canon t)) with (transfer_body_f (d_canon transfer_D t)). cbn [d_canon transfer_D]. rewrite transfer_body_of. now destruct (transfer_payload t). Qed.

Definition take_all md := fold_left (fun s t => take_transfer md s (transfer_canon t)).
Lemma other_frame md c h s ch p : (forall t, p <> FR_Transfer t) -> collect md c h s (IAmqp (MkAmqpFrame ch p)) = (s, None).
Proof. intros N. unfold collect. destruct p; try reflexivity. now elim (N v). Qed.
Lemma collect_one md c h f s : collect md c h s (IAmqp (amqp_received f)) = (take_all md (on_link c h f) s, None).
Proof.
  destruct f as [ch p]. unfold amqp_received. cbn [af_channel_id af_performative]. destruct p; try reflexivity.
  rewrite canon_transfer. unfold collect, on_link, take_all. rewrite canon_handle. now destruct (_ && _).
Qed.
Lemma take_app md ts us s : take_all md (ts ++ us) s = take_all md us (take_all md ts s).
Proof. apply fold_left_app. Qed.
Lemma take_cons md t ts s : take_all md (t :: ts) s = take_all md ts (take_transfer md s (transfer_canon t)).
Proof. reflexivity. Qed.
Lemma collect_all md c h fs s : agrees (collect md c h) s KAmqp (map (fun f => IAmqp (amqp_received f)) fs) (take_all md (transfers c h fs) s) KAmqp.
Proof.
  revert s. induction fs as [|f fs IH]; intros s; [constructor|]. cbn [map]. rewrite transfers_cons, take_app.
  eapply agrees_keep; [reflexivity|apply collect_one|]. apply IH.
Qed.
Lemma take_pieces md ts part got : Forall unfinished ts -> take_all md ts (part, got) = (part ++ concat (map transfer_payload ts), got).
Proof.
  intros H. revert part. induction H as [|t ts [M A] _ IH]; intros part; [cbn [take_all fold_left map concat]; now rewrite app_nil_r|].
  rewrite take_cons. unfold take_transfer. rewrite canon_aborted, canon_more, canon_body, A, M.
  rewrite IH. cbn [map concat]. now rewrite app_assoc.
Qed.
Lemma take_deliveries md ts ms got : deliveries ts ms -> Forall message_sendable ms ->
  take_all md ts ([], got) = ([], got ++ map (fun m => Some (received_message m)) ms).
Proof.
  intros H. revert got. induction H as [|ps l m ts ms P [M A] E _ IH|ps l ts ms P A _ IH]; intros got F.
  - cbn [map]. now rewrite app_nil_r.
  - apply Forall_cons_iff in F as [F1 F2]. rewrite take_app, take_cons. assert (TP : take_all md ps ([], got) = (concat (map transfer_payload ps), got)) by exact (take_pieces md ps [] got P). rewrite TP. unfold take_transfer. rewrite canon_aborted, canon_more, canon_body, A, M. cbn [app].
    rewrite map_app, concat_app in E. cbn [map concat] in E. rewrite app_nil_r in E. rewrite E, (message_round_trip md m F1).
    rewrite (IH _ F2), <- app_assoc. reflexivity.
  - rewrite take_app, take_cons. assert (TP : take_all md ps ([], got) = (concat (map transfer_payload ps), got)) by exact (take_pieces md ps [] got P). rewrite TP. unfold take_transfer. rewrite canon_aborted, A. exact (IH got F).
Qed.
Lemma delivered md c h items fs ms b : map snd items = map IAmqp fs -> Forall (fun i => 0 <= fst i) items -> Forall amqp_sendable fs ->
  deliveries (transfers c h fs) ms -> Forall message_sendable ms -> buf_ok b -> b_data b = [] ->
  exists b', send_items items b = Some b' /\ forall chunks, concat chunks = b_data b' ->
    receive_all (collect md c h) md (connection_new ([], []) KAmqp) chunks =
      (connection_new ([], map (fun m => Some (received_message m)) ms) KAmqp, map (fun f => SItem (IAmqp (amqp_received f))) fs).
Proof.
  intros E S F D M B B0.
  assert (R : map (fun i => item_received (snd i)) items = map (fun f => IAmqp (amqp_received f)) fs)
    by (rewrite <- (map_map snd item_received), E, map_map; reflexivity).
  destruct (conversation (collect md c h) md items ([], []) KAmqp (take_all md (transfers c h fs) ([], [])) KAmqp b) as (b' & Hb & H); [|exact B|exact B0| |].
  - assert (G : Forall item_sendable (map snd items)) by (rewrite E; apply Forall_map; exact F).
    rewrite Forall_forall in *. intros i I. split; [exact (S i I)|]. apply G. apply in_map. exact I.
  - rewrite R. apply collect_all.
  - exists b'. split; [exact Hb|]. intros chunks C. etransitivity; [exact (H chunks C)|].
    assert (T : take_all md (transfers c h fs) ([], []) = ([], map (fun m => Some (received_message m)) ms)) by exact (take_deliveries md _ _ [] D M). rewrite T. f_equal.
    rewrite <- (map_map (fun i => item_received (snd i)) SItem), R, map_map. reflexivity.
Qed.

(** ** What is sent *)
Lemma next_link c h ps : transfers c h (in_frames c (next_transfers h ps)) = next_transfers h ps.
Proof.
  induction ps as [|p ps IH]; [reflexivity|]. cbn [next_transfers]. unfold in_frames. cbn [map]. rewrite transfers_cons. unfold on_link.
  cbn [transfer_handle next_transfer]. rewrite !Z.eqb_refl. cbn [andb app]. f_equal. exact IH.
Qed.
Lemma pieces_link c h id tag ps : transfers c h (in_frames c (in_pieces h id tag ps)) = in_pieces h id tag ps.
Proof.
  destruct ps as [|p ps]; [reflexivity|]. cbn [in_pieces]. unfold in_frames. cbn [map]. rewrite transfers_cons. unfold on_link.
  cbn [transfer_handle first_transfer]. rewrite !Z.eqb_refl. cbn [andb app]. f_equal. exact (next_link c h ps).
Qed.
Lemma next_payload h more p : transfer_payload (next_transfer h more p) = p.
Proof. unfold transfer_payload, next_transfer. cbn [transfer_body_f]. unfold payload. cbn. apply app_nil_r. Qed.
Lemma first_payload h id tag more p : transfer_payload (first_transfer h id tag more p) = p.
Proof. exact (next_payload h more p). Qed.
Lemma next_split h p ps : exists pieces last, next_transfers h (p :: ps) = pieces ++ [last] /\ Forall unfinished pieces /\ finished last /\
  concat (map transfer_payload (pieces ++ [last])) = concat (p :: ps).
Proof.
  revert p. induction ps as [|q ps IH]; intros p.
  - exists [], (next_transfer h false p). split; [reflexivity|]. split; [apply Forall_nil|]. split; [split; reflexivity|]. cbn [app map concat]. now rewrite next_payload.
  - destruct (IH q) as (pieces & l & E & U & F & C). exists (next_transfer h true p :: pieces), l.
    change (next_transfers h (p :: q :: ps)) with (next_transfer h true p :: next_transfers h (q :: ps)). rewrite E. split; [reflexivity|].
    split; [now constructor|]. split; [exact F|]. cbn [app map concat]. cbn [concat] in C. rewrite C, next_payload. reflexivity.
Qed.
Lemma pieces_deliver h id tag ps m : ps <> [] -> concat ps = message_bytes m -> deliveries (in_pieces h id tag ps) [m].
Proof.
  intros N E. destruct ps as [|p [|q ps]]; [easy| |].
  - change (in_pieces h id tag [p]) with ([] ++ first_transfer h id tag false p :: []).
    apply deliveries_one; [constructor|split; reflexivity| |constructor]. cbn [app map]. rewrite first_payload. exact E.
  - destruct (next_split h q ps) as (pieces & l & E2 & U & F & C).
    assert (E3 : in_pieces h id tag (p :: q :: ps) = (first_transfer h id tag true p :: pieces) ++ l :: []) by (cbn [app]; rewrite <- E2; reflexivity).
    rewrite E3.
    apply deliveries_one; [constructor; [split; reflexivity|exact U]|exact F| |constructor].
    cbn [app map concat]. rewrite first_payload, C. exact E.
Qed.

(** ** How long it is *)
Lemma u32_at_most x : u32_size x <= 5.
Proof. unfold u32_size. repeat destruct (_ =? _); repeat destruct (_ <? _); try lia. Qed.
Lemma tag_at_most tag : zlen tag <= 32 -> bin_size tag <= 34.
Proof. intros H. unfold bin_size, var_size. destruct (_ <? _) eqn:E; lia. Qed.
Ltac content := unfold transfer_content_size, first_transfer, next_transfer;
  cbn [transfer_handle transfer_delivery_id transfer_delivery_tag transfer_message_format transfer_settled transfer_more transfer_rcv_settle_mode transfer_state transfer_resume transfer_aborted transfer_batchable];
  repeat match goal with |- context [e_size (c_E ?C) ?v] => let y := eval cbn in (e_size (c_E C) v) in change (e_size (c_E C) v) with y end.
Lemma first_content h id tag more p : zlen tag <= 32 -> transfer_content_size (first_transfer h id tag more p) <= 52.
Proof.
  intros H. content. pose proof (u32_at_most h). pose proof (u32_at_most id). pose proof (tag_at_most tag H). unfold bool_size. lia.
Qed.
Lemma next_content h more p : transfer_content_size (next_transfer h more p) <= 52.
Proof. content. pose proof (u32_at_most h). unfold bool_size. lia. Qed.
Lemma short_content n : n <= 52 -> composite_size n <= 58.
Proof. intros H. unfold composite_size. destruct (_ <? _) eqn:E; lia. Qed.
Local Strategy expand [transfer_size].
Lemma size_def t : transfer_size t = composite_size (transfer_content_size t) + match transfer_body_f t with Some b => transfer_body_size b | None => 0 end.
Proof. reflexivity. Qed.
Lemma data_size t p : transfer_body_f t = Some (TBData p) -> transfer_content_size t <= 52 -> frame_size (FR_Transfer t) <= 58 + zlen p.
Proof.
  intros B C. pose proof (short_content _ C). change (frame_size (FR_Transfer t)) with (transfer_size t). rewrite size_def, B. destruct (transfer_body_carries p message_default) as (_ & E & _). rewrite E. lia.
Qed.
Lemma data_sendable t p : transfer_body_f t = Some (TBData p) -> transfer_content_size t <= 52 -> bytes_ok p -> 66 + zlen p < 2 ^ 32 ->
  d_valid transfer_D t -> d_encodable transfer_D t -> d_decodable transfer_D (d_canon transfer_D t) -> frame_sendable (FR_Transfer t).
Proof.
  intros B C O L V E D. pose proof (data_size t p B C). split; [exact V|]. split; [cbn [frame_memo_ok]; now rewrite B|].
  split; [cbn [frame_headers]; now rewrite B|]. split; [exact E|]. split; [unfold HEADER_LEN; lia|exact D].
Qed.
Lemma next_sendable h more p : 0 <= h < 2 ^ 32 -> bytes_ok p -> 66 + zlen p < 2 ^ 32 -> frame_sendable (FR_Transfer (next_transfer h more p)).
Proof.
  intros H O L. apply (data_sendable _ p); [reflexivity|apply next_content|exact O|exact L| | |].
  - cbn. repeat split; try easy; exact O.
  - cbn. easy.
  - cbn. easy.
Qed.
Lemma first_sendable h id tag more p : 0 <= h < 2 ^ 32 -> 0 <= id < 2 ^ 32 -> bytes_ok tag -> zlen tag <= 32 -> bytes_ok p -> 66 + zlen p < 2 ^ 32 ->
  frame_sendable (FR_Transfer (first_transfer h id tag more p)).
Proof.
  intros H I T N O L. apply (data_sendable _ p); [reflexivity|now apply first_content|exact O|exact L| | |].
  - cbn. repeat split; try easy; try exact O; try exact T; lia.
  - cbn. easy.
  - cbn. repeat split; lia.
Qed.

Lemma amqp_size_def c p : amqp_frame_size (MkAmqpFrame c p) = 8 + frame_size p.
Proof. reflexivity. Qed.
Lemma frame_length c t p : transfer_body_f t = Some (TBData p) -> transfer_content_size t <= 52 -> frame_sendable (FR_Transfer t) ->
  zlen (amqp_bytes (MkAmqpFrame c (FR_Transfer t))) <= 66 + zlen p.
Proof.
  intros B C (V & M & H & _). destruct (amqp_size_bytes c (FR_Transfer t) V M) as (E & _). rewrite H, amqp_size_def in E. unfold amqp_bytes.
  pose proof (data_size t p B C). lia.
Qed.
Lemma next_frames c h ps limit : 0 <= c < 2 ^ 16 -> 0 <= h < 2 ^ 32 -> limit < 2 ^ 32 -> Forall (fun p => bytes_ok p /\ 66 + zlen p <= limit) ps ->
  Forall (fun f => amqp_sendable f /\ zlen (amqp_bytes f) <= limit) (in_frames c (next_transfers h ps)).
Proof.
  intros C H L F. induction F as [|p ps [O P] _ IH]; [constructor|]. cbn [next_transfers]. unfold in_frames. cbn [map]. constructor; [|exact IH].
  set (more := match ps with [] => false | _ => true end).
  assert (S : frame_sendable (FR_Transfer (next_transfer h more p))) by (apply next_sendable; [exact H|exact O|lia]).
  split; [split; [exact C|exact S]|]. etransitivity; [apply (frame_length c _ p); [reflexivity|apply next_content|exact S]|exact P].
Qed.
Lemma pieces_frames c h id tag ps limit : 0 <= c < 2 ^ 16 -> 0 <= h < 2 ^ 32 -> 0 <= id < 2 ^ 32 -> bytes_ok tag -> zlen tag <= 32 -> limit < 2 ^ 32 ->
  Forall (fun p => bytes_ok p /\ 66 + zlen p <= limit) ps ->
  Forall (fun f => amqp_sendable f /\ zlen (amqp_bytes f) <= limit) (in_frames c (in_pieces h id tag ps)).
Proof.
  intros C H I T N L F. destruct F as [|p ps [O P] F]; [constructor|]. cbn [in_pieces]. unfold in_frames. cbn [map]. constructor; [|now apply next_frames].
  set (more := match ps with [] => false | _ => true end).
  assert (S : frame_sendable (FR_Transfer (first_transfer h id tag more p))) by (apply first_sendable; try assumption; lia).
  split; [split; [exact C|exact S]|]. etransitivity; [apply (frame_length c _ p); [reflexivity|now apply first_content|exact S]|exact P].
Qed.
Lemma message_bytes_ok m : message_sendable m -> bytes_ok (message_bytes m).
Proof.
  intros [HS HN]. destruct (sendable_body m HS) as [H0 HV].
  assert (E : message_bytes m = concat (map (s_bytes section_S) (message_sections m))).
  { rewrite <- sections_bytes_concat. apply message_bytes_sections; [|rewrite H0; constructor|exact HV].
    eapply Forall_impl; [|exact HN]. intros t (V & M & H). destruct (all_measured t V M) as (E & _). lia. }
  rewrite E. now apply sections_ok.
Qed.
Lemma concat_bytes_ok ps : bytes_ok (concat ps) -> Forall bytes_ok ps.
Proof. induction ps as [|p ps IH]; intros H; [constructor|]. cbn [concat] in H. apply bytes_ok_app in H as [H1 H2]. constructor; auto. Qed.
Lemma sent_in_pieces c h id tag m ps limit : 0 <= c < 2 ^ 16 -> 0 <= h < 2 ^ 32 -> 0 <= id < 2 ^ 32 -> bytes_ok tag -> zlen tag <= 32 -> limit < 2 ^ 32 ->
  message_sendable m -> ps <> [] -> concat ps = message_bytes m -> Forall (fun p => 66 + zlen p <= limit) ps ->
  let fs := in_frames c (in_pieces h id tag ps) in
  Forall amqp_sendable fs /\ Forall (fun f => zlen (amqp_bytes f) <= limit) fs /\ deliveries (transfers c h fs) [m].
Proof.
  intros C H I T N L M P E F fs. assert (G : Forall (fun f => amqp_sendable f /\ zlen (amqp_bytes f) <= limit) fs).
  { apply pieces_frames; try assumption. pose proof (concat_bytes_ok ps) as O. rewrite E in O. specialize (O (message_bytes_ok m M)).
    rewrite Forall_forall in *. intros p Hp. split; [exact (O p Hp)|exact (F p Hp)]. }
  split; [|split].
  - eapply Forall_impl; [|exact G]. now intros f [].
  - eapply Forall_impl; [|exact G]. now intros f [].
  - unfold fs. rewrite pieces_link. now apply pieces_deliver.
Qed.
Lemma chopped n (bs : bytes) : 0 < n -> exists ps, ps <> [] /\ concat ps = bs /\ Forall (fun p => zlen p <= n) ps /\ zlen ps <= zlen bs / n + 1.
Proof.
  intros N. remember (length bs) as k eqn:K. revert bs K. induction (lt_wf k) as [k _ IH]. intros bs ->.
  destruct (Z.leb_spec (zlen bs) n) as [L|L].
  - exists [bs]. split; [discriminate|]. split; [apply app_nil_r|]. split; [now repeat constructor|].
    pose proof (Z.div_pos (zlen bs) n (zlen_nonneg bs) N). change (zlen [bs]) with 1. lia.
  - assert (Z.of_nat (length (skipn (Z.to_nat n) bs)) = zlen bs - n) by (rewrite skipn_length; unfold zlen in *; lia).
    destruct (IH (length (skipn (Z.to_nat n) bs))) with (bs := skipn (Z.to_nat n) bs) as (ps & P & E & F & C); [unfold zlen in *; lia|reflexivity|].
    exists (firstn (Z.to_nat n) bs :: ps). split; [discriminate|]. split; [cbn [concat]; rewrite E; apply firstn_skipn|].
    split; [constructor; [unfold zlen; rewrite firstn_length; lia|exact F]|].
    rewrite zlen_cons. replace (zlen (skipn (Z.to_nat n) bs)) with (zlen bs + (-1) * n) in C by (unfold zlen at 2; lia).
    rewrite Z.div_add in C by lia. lia.
Qed.
Lemma next_count h ps : zlen (next_transfers h ps) = zlen ps.
Proof. induction ps as [|p ps IH]; [reflexivity|]. cbn [next_transfers]. rewrite !zlen_cons. lia. Qed.
Lemma pieces_count c h id tag ps : zlen (in_frames c (in_pieces h id tag ps)) = zlen ps.
Proof.
  unfold in_frames, zlen. rewrite map_length. destruct ps as [|p ps]; [reflexivity|]. cbn [in_pieces]. pose proof (next_count h ps). unfold zlen in *. cbn [length]. lia.
Qed.
Lemma fits c h id tag m limit : 0 <= c < 2 ^ 16 -> 0 <= h < 2 ^ 32 -> 0 <= id < 2 ^ 32 -> bytes_ok tag -> zlen tag <= 32 -> 66 < limit < 2 ^ 32 -> message_sendable m ->
  exists pieces, let fs := in_frames c (in_pieces h id tag pieces) in
    Forall amqp_sendable fs /\ Forall (fun f => zlen (amqp_bytes f) <= limit) fs /\ deliveries (transfers c h fs) [m] /\
    zlen fs <= zlen (message_bytes m) / (limit - 66) + 1.
Proof.
  intros C H I T N L M. destruct (chopped (limit - 66) (message_bytes m)) as (ps & P & E & F & B); [lia|].
  exists ps. intros fs. destruct (sent_in_pieces c h id tag m ps limit) as (S1 & S2 & S3); try assumption; [lia| |].
  - eapply Forall_impl; [|exact F]. intros p X. cbn beta in X. lia.
  - split; [exact S1|]. split; [exact S2|]. split; [exact S3|]. unfold fs. rewrite pieces_count. exact B.
Qed.

(** ** Whatever is received *)
Definition taken md := fold_left (take_transfer md).
Lemma taken_app md ts us s : taken md (ts ++ us) s = taken md us (taken md ts s).
Proof. apply fold_left_app. Qed.
Lemma taken_cons md t ts s : taken md (t :: ts) s = taken md ts (take_transfer md s t).
Proof. reflexivity. Qed.
Definition data_only (t : transfer_t) : Prop := match transfer_body_f t with Some (TBData _) | None => True | _ => False end.
Lemma data_body t : data_only t -> match transfer_body_f t with Some (TBData b) => b | _ => [] end = transfer_payload t.
Proof. unfold data_only, transfer_payload. destruct (transfer_body_f t) as [[]|]; try easy. intros _. symmetry. exact (proj1 (transfer_body_carries b message_default)). Qed.
Lemma take_data md part got t : data_only t -> take_transfer md (part, got) t =
  if transfer_aborted t then ([], got) else if transfer_more t then (part ++ transfer_payload t, got) else ([], got ++ [read_message md (part ++ transfer_payload t)]).
Proof. intros D. rewrite <- (data_body t D). reflexivity. Qed.
Lemma taken_collected md ts : Forall data_only ts -> forall pieces got, Forall unfinished pieces -> Forall data_only pieces ->
  exists part new, taken md ts (concat (map transfer_payload pieces), got) = (part, got ++ new) /\ collected md (pieces ++ ts) part new.
Proof.
  induction 1 as [|t ts D _ IH]; intros pieces got U P.
  - exists (concat (map transfer_payload pieces)), []. rewrite !app_nil_r. split; [reflexivity|now constructor].
  - rewrite taken_cons, (take_data md _ _ t D). destruct (transfer_aborted t) eqn:A; [|destruct (transfer_more t) eqn:M].
    + destruct (IH [] got ltac:(constructor) ltac:(constructor)) as (part & new & E & C). exists part, new. split; [exact E|].
      now apply collected_aborted.
    + destruct (IH (pieces ++ [t]) got) as (part & new & E & C); [apply Forall_app; split; [exact U|now repeat constructor]|apply Forall_app; split; [exact P|now repeat constructor]|].
      exists part, new. rewrite map_app, concat_app in E. cbn [map concat] in E. rewrite app_nil_r in E. split; [exact E|].
      rewrite <- app_assoc in C. exact C.
    + destruct (IH [] (got ++ [read_message md (concat (map transfer_payload pieces) ++ transfer_payload t)]) ltac:(constructor) ltac:(constructor)) as (part & new & E & C).
      exists part, (read_message md (concat (map transfer_payload pieces) ++ transfer_payload t) :: new). split; [rewrite <- app_assoc in E; exact E|].
      replace (concat (map transfer_payload pieces) ++ transfer_payload t) with (concat (map transfer_payload (pieces ++ [t])))
        by (rewrite map_app, concat_app; cbn [map concat]; now rewrite app_nil_r).
      apply collected_one; [exact U|split; assumption|exact C].
Qed.
Lemma collect_step md c h f s : collect md c h s (IAmqp f) = (taken md (on_link c h f) s, None).
Proof. destruct f as [ch p]. destruct p; try reflexivity. unfold collect, on_link, taken. now destruct (_ && _). Qed.
Lemma collect_agrees md c h s k xs s' k' : agrees (collect md c h) s k xs s' k' -> k = KAmqp ->
  k' = KAmqp /\ exists fs, xs = map IAmqp fs /\ s' = taken md (transfers c h fs) s.
Proof.
  induction 1 as [s k|s k x xs s1 s' k' K E _ IH|s k x xs s1 k1 s' k' K E _ IH]; intros ->.
  - split; [reflexivity|]. now exists [].
  - destruct (IH eq_refl) as (K2 & fs & -> & ->). split; [exact K2|]. destruct x as [| |f]; try discriminate. rewrite collect_step in E. injection E as <-.
    exists (f :: fs). split; [reflexivity|]. rewrite transfers_cons. symmetry. apply taken_app.
  - discriminate E.
Qed.
Lemma frames_data md c h fs bss : Forall2 (item_bytes md) (map IAmqp fs) bss -> Forall data_only (transfers c h fs).
Proof.
  revert bss. induction fs as [|f fs IH]; intros bss H; [constructor|]. cbn [map] in H. inversion H as [|x b xs bs Hf Hfs]; subst. rewrite transfers_cons. apply Forall_app. split; [|exact (IH _ Hfs)].
  destruct f as [ch p]. destruct p as [| | | |t| | | | |]; try constructor. unfold on_link. destruct (_ && _); constructor; [|constructor].
  destruct Hf as (body & _ & _ & E). unfold amqp_frame_decode in E. destruct (decode_frame_header body FRAME_TYPE_AMQP) as [[i1 ci]| | |]; try discriminate.
  cbn [bind] in E. destruct (frame_decode md i1) as [[i2 p]| | |] eqn:F; try discriminate. cbn [bind] in E. injection E as -> _ ->.
  unfold data_only. rewrite (received_body md i1 [] t F). now destruct (transfer_payload t).
Qed.
Lemma collects md c h chunks : bytes_ok (concat chunks) -> zlen (concat chunks) < 2 ^ 63 ->
  exists fs bss part got tail, concat chunks = concat bss ++ tail /\ Forall2 (frame_of amqp_frame_decode md) fs bss /\
    collected md (transfers c h fs) part got /\
    (((forall f bs rest, frame_of amqp_frame_decode md f bs -> tail <> bs ++ rest) /\
      exists r rest, receive_all (collect md c h) md (connection_new ([], []) KAmqp) chunks =
        (CLive (part, got) r rest, map (fun f => SItem (IAmqp f)) fs)) \/
     ((forall f bs rest more, frame_of amqp_frame_decode md f bs -> tail ++ more <> bs ++ rest) /\
      exists e, receive_all (collect md c h) md (connection_new ([], []) KAmqp) chunks =
        (CDead, map (fun f => SItem (IAmqp f)) fs ++ [SFail e]))).
Proof.
  intros B L. destruct (connection_only (collect md c h) md ([], []) KAmqp chunks B L) as (xs & bss & s & k' & tail & E & F & A & R).
  destruct (collect_agrees _ _ _ _ _ _ _ _ A eq_refl) as (-> & fs & -> & ->).
  destruct (taken_collected md (transfers c h fs) (frames_data md c h fs bss F) [] [] ltac:(constructor) ltac:(constructor)) as (part & got & T & C).
  exists fs, bss, part, got, tail. split; [exact E|]. split.
  { clear - F. revert bss F. induction fs as [|f fs IH]; intros bss F; inversion F; subst; constructor; auto. }
  split; [exact C|]. destruct R as [(r & rest & W & R)|(r & rest & e & W & R)].
  - left. split; [intros f bs0 rest0 Hf ->; pose proof (read_whole md (IAmqp f) bs0 rest0 Hf) as X; cbn [kind_of] in X; congruence|]. exists r, rest. rewrite map_map in R. etransitivity; [exact R|]. f_equal. f_equal. exact T.
  - right. split; [intros f bs0 rest0 more Hf X; apply (read_more _ _ _ more) in W; [|discriminate]; rewrite X in W; pose proof (read_whole md (IAmqp f) bs0 rest0 Hf) as Y; cbn [kind_of] in Y; congruence|].
    exists e. rewrite map_map in R. exact R.
Qed.

(** ** Sent on *)
Lemma passed_sendable m : passed_on m -> message_sendable m /\ received_message m = m.
Proof.
  intros ((md & inp & r & B & E) & S & N). destruct (received_sections md inp r m E B) as (secs & -> & F). exact (message_settled secs F S N).
Qed.
Lemma forwarded md c h items fs ms b : map snd items = map IAmqp fs -> Forall (fun i => 0 <= fst i) items -> Forall amqp_sendable fs ->
  deliveries (transfers c h fs) ms -> Forall passed_on ms -> buf_ok b -> b_data b = [] ->
  exists b', send_items items b = Some b' /\ forall chunks, concat chunks = b_data b' ->
    receive_all (collect md c h) md (connection_new ([], []) KAmqp) chunks =
      (connection_new ([], map Some ms) KAmqp, map (fun f => SItem (IAmqp (amqp_received f))) fs).
Proof.
  intros E S F D M B B0. destruct (delivered md c h items fs ms b E S F D) as (b' & Hb & H); [|exact B|exact B0|].
  - eapply Forall_impl; [|exact M]. intros m P. apply (passed_sendable m P).
  - exists b'. split; [exact Hb|]. intros chunks C. etransitivity; [exact (H chunks C)|]. f_equal. f_equal. f_equal.
    clear - M. induction M as [|m ms P _ IH]; [reflexivity|]. cbn [map]. now rewrite IH, (proj2 (passed_sendable m P)).
Qed.
