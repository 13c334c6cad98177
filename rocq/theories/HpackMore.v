(* Further facts about the HPACK encoder and whole sessions. *)
From Verif Require Import Base HuffTables HuffModel HuffSpec HuffDerived Leb HpackStatic HpackModel HpackSpec
  HpackApi HpackInt HpackStr HpackTab HpackDec HpackEnc HpackDerived.
Open Scope N_scope.

(* ------------------------------------------------------------------ *)
(* Encoding appends, and what it appends depends on neither destination nor mode. *)
Definition same_app {A} (dst dst' : list N) (x y : list N * outcome enc_error A) : Prop :=
  exists bs o, x = (dst ++ bs, o) /\ y = (dst' ++ bs, o).

Lemma same_app_step {A} dst dst' b (x y : list N * outcome enc_error A) :
  same_app (dst ++ b) (dst' ++ b) x y -> same_app dst dst' x y.
Proof. intros (bs & o & -> & ->). exists (b ++ bs), o. rewrite !app_assoc. auto. Qed.

Lemma encode_tail_same fuel : forall v dst dst',
  same_app dst dst' (encode_integer_tail fuel v dst) (encode_integer_tail fuel v dst').
Proof.
  induction fuel as [|fuel IH]; intros v dst dst'; cbn [encode_integer_tail]; destruct (128 <=? v).
  - exists [], OutOfFuel. rewrite !app_nil_r. auto.
  - eexists _, _. split; reflexivity.
  - eapply same_app_step. apply IH.
  - eexists _, _. split; reflexivity.
Qed.

Lemma encode_integer_same v f p dst dst' :
  same_app dst dst' (encode_integer v f p dst) (encode_integer v f p dst').
Proof.
  unfold encode_integer. destruct ((p <? 1) || (8 <? p)).
  - exists [], (Err EInvalidPrefix). rewrite !app_nil_r. auto.
  - cbv zeta. match goal with |- context [if ?c then _ else _] => destruct c end.
    + eexists _, _. split; reflexivity.
    + eapply same_app_step. apply encode_tail_same.
Qed.

Lemma encode_string_same m m' data h dst dst' : bytes data ->
  same_app dst dst' (encode_string m data h dst) (encode_string m' data h dst').
Proof.
  intros Hb. unfold encode_string.
  assert (E : exists fl bs, (if h then let '(h0, r) := encode m data [] in _ <- enc_of_huff r;; Ok (128, h0) else Ok (0, data)) = Ok (fl, bs) /\
     (if h then let '(h0, r) := encode m' data [] in _ <- enc_of_huff r;; Ok (128, h0) else Ok (0, data)) = Ok (E := enc_error) (fl, bs)).
  { destruct h; [|eauto]. destruct (encode_indep m m' data [] [] Hb) as (out & -> & ->). cbn. eauto. }
  destruct E as (fl & bs & -> & ->). cbn [bindd].
  destruct (U32_MAX <? N.of_nat (length bs)).
  - eexists [], _. rewrite !app_nil_r. auto.
  - destruct (encode_integer_same (N.of_nat (length bs)) fl 7 dst dst') as (b & o & -> & ->).
    destruct o; cbn [binds]; eexists _, _; split; try reflexivity; rewrite <- !app_assoc; reflexivity.
Qed.

Definition same_enc (dst dst' : list N) (x y : enc_state * outcome enc_error unit) : Prop :=
  exists t bs o, x = ((t, dst ++ bs), o) /\ y = ((t, dst' ++ bs), o).

Lemma same_with t dst dst' x y : same_app dst dst' x y -> same_enc dst dst' (with_table t x) (with_table t y).
Proof. intros (bs & o & -> & ->). exists t, bs, o. auto. Qed.

Lemma same_binds dst dst' x y k k' : same_enc dst dst' x y ->
  (forall t d d', same_enc d d' (k (t, d) tt) (k' (t, d') tt)) ->
  same_enc dst dst' (binds x k) (binds y k').
Proof.
  intros (t & bs & o & -> & ->) Hk. destruct o as [[]|e| |]; cbn [binds]; try (eexists _, _, _; split; reflexivity).
  destruct (Hk t (dst ++ bs) (dst' ++ bs)) as (t' & b & o & -> & ->). exists t', (bs ++ b), o.
  rewrite !app_assoc. auto.
Qed.

Lemma same_enc_refl t dst dst' bs o : same_enc dst dst' ((t, dst ++ bs), o) ((t, dst' ++ bs), o).
Proof. exists t, bs, o. auto. Qed.

Lemma same_enc_nil t dst dst' o : same_enc dst dst' ((t, dst), o) ((t, dst'), o).
Proof. exists t, [], o. rewrite !app_nil_r. auto. Qed.

Lemma encode_indexed_same t i dst dst' : same_enc dst dst' (encode_indexed t i dst) (encode_indexed t i dst').
Proof.
  unfold encode_indexed. destruct (table_get t i); [|apply same_enc_nil]. apply same_with, encode_integer_same.
Qed.

Lemma encode_indexed_name_same m m' t i v fl dst dst' : wf t -> bytes v ->
  same_enc dst dst' (encode_indexed_name m t i v fl dst) (encode_indexed_name m' t i v fl dst').
Proof.
  intros Hw Hv. unfold encode_indexed_name. destruct (table_get t i) as [e|]; [|apply same_enc_nil].
  cbv zeta. apply same_binds.
  - destruct (has_flag fl 4); [|destruct (has_flag fl 8)]; try apply same_with, encode_integer_same.
    destruct (@table_insert_ok enc_error m t (fst e) v Hw) as [-> _].
    destruct (@table_insert_ok enc_error m' t (fst e) v Hw) as [-> _]. cbn [bindd].
    apply same_with, encode_integer_same.
  - intros t1 d d'. cbn [fst snd]. apply same_with, encode_string_same, Hv.
Qed.

Lemma encode_literal_same m m' t n v fl dst dst' : wf t -> bytes n -> bytes v ->
  same_enc dst dst' (encode_literal m t n v fl dst) (encode_literal m' t n v fl dst').
Proof.
  intros Hw Hn Hv. unfold encode_literal. apply same_binds.
  - destruct (has_flag fl 4); [|destruct (has_flag fl 8)]; try apply same_enc_refl.
    destruct (@table_insert_ok enc_error m t n v Hw) as [-> _].
    destruct (@table_insert_ok enc_error m' t n v Hw) as [-> _]. cbn [bindd]. apply same_enc_refl.
  - intros t1 d d'. cbn [fst snd]. apply same_binds.
    + apply same_with, encode_string_same, Hn.
    + intros t2 d2 d2'. cbn [fst snd]. apply same_with, encode_string_same, Hv.
Qed.

Lemma find_mode {E} m m' t n v : wf t -> @table_find E m t n v = table_find m' t n v.
Proof.
  intros Hw. destruct (@table_find_ok E m t n v Hw) as (r & -> & H).
  destruct (@table_find_ok E m' t n v Hw) as (r' & -> & H'). f_equal.
  eapply find_spec_unique; [|exact H|exact H']. reflexivity.
Qed.

Theorem hencode_same m m' t f dst dst' : wf t -> input_ok f ->
  same_enc dst dst' (hencode m t f dst) (hencode m' t f dst').
Proof.
  intros Hw Hf. destruct f as [i|i v fl|n v fl]; cbn [hencode].
  - apply encode_indexed_same.
  - destruct Hf as (_ & Hv & _). apply encode_indexed_name_same; auto.
  - destruct Hf as (Hn & Hv & _). destruct (has_flag fl 16); [|apply encode_literal_same; auto].
    rewrite (find_mode m m' t n v Hw). destruct (@table_find_ok enc_error m' t n v Hw) as (r & -> & _).
    cbn [bindd]. destruct r as [[i []]|].
    + apply encode_indexed_same.
    + apply encode_indexed_name_same; auto.
    + apply encode_literal_same; auto.
Qed.

Theorem update_same m m' t n dst dst' : wf t -> n < 2 ^ 32 ->
  same_enc dst dst' (encoder_update_max m t n dst) (encoder_update_max m' t n dst').
Proof.
  intros Hw Hn. unfold encoder_update_max.
  destruct (@table_update_ok enc_error m t n Hw Hn) as [-> _].
  destruct (@table_update_ok enc_error m' t n Hw Hn) as [-> _]. cbn [bindd].
  apply same_with, encode_integer_same.
Qed.

Theorem run_ops_same m m' ops : forall t dst dst', wf t -> Forall op_typed ops ->
  exists t' out rs, run_ops m t dst ops = (t', dst ++ out, rs) /\ run_ops m' t dst' ops = (t', dst' ++ out, rs).
Proof.
  induction ops as [|o ops IH]; intros t dst dst' Hw Ho.
  - exists t, [], []. cbn. rewrite !app_nil_r. auto.
  - inversion Ho as [|? ? H1 H2]; subst. cbn [run_ops].
    assert (S : exists t1 bs r, wf t1 /\
      match o with Send f => hencode m t f dst | Resize n => encoder_update_max m t n dst end = ((t1, dst ++ bs), r) /\
      match o with Send f => hencode m' t f dst' | Resize n => encoder_update_max m' t n dst' end = ((t1, dst' ++ bs), r)).
    { destruct o as [f|n]; cbn [op_typed] in H1.
      - destruct (hencode_same m m' t f dst dst' Hw H1) as (t1 & bs & r & E & E').
        exists t1, bs, r. split; [|auto]. pose proof (hencode_wf m t f dst Hw H1) as W. rewrite E in W. exact W.
      - destruct (update_same m m' t n dst dst' Hw H1) as (t1 & bs & r & E & E').
        exists t1, bs, r. split; [|auto]. destruct (encoder_update_ok m t n dst Hw H1) as (b & E2 & _ & _ & _ & W).
        rewrite E in E2. injection E2 as -> _ _. exact W. }
    destruct S as (t1 & bs & r & W & -> & ->).
    destruct (IH t1 (dst ++ bs) (dst' ++ bs) W H2) as (t' & out & rs & -> & ->).
    exists t', (bs ++ out), (r :: rs). rewrite !app_assoc. auto.
Qed.

(* ------------------------------------------------------------------ *)
(* Sessions in which no call returned IntegerOverflow. *)

(* One operation: nothing on the wire, or one representation. *)
Definition op_step (m : mode) (t : table) (dst : list N) (o : op) :=
  match o with Send f => hencode m t f dst | Resize n => encoder_update_max m t n dst end.

Lemma run_ops_cons m t dst o ops : run_ops m t dst (o :: ops) =
  let '((t', dst'), r) := op_step m t dst o in
  let '(t'', dst'', rs) := run_ops m t' dst' ops in (t'', dst'', r :: rs).
Proof. destruct o; reflexivity. Qed.

(* What the first operation means. *)
Definition op_meaning (d : dyn) (o : op) : dyn * list out_header * outcome enc_error unit :=
  match o with
  | Send f => match field_of (entries d) f with
              | Some (n, v) => (if flag_used (entries d) f =? 4 then insert d (n, v) else d,
                                [(n, v, flag_used (entries d) f)], Ok tt)
              | None => (d, [], Err EInvalidIndex)
              end
  | Resize n => (resize d n, [], Ok tt)
  end.

Lemma meaning_cons d o ops : meaning d (o :: ops) =
  let '(d1, h, r) := op_meaning d o in
  let '(d2, hs, rs) := meaning d1 ops in (d2, h ++ hs, r :: rs).
Proof.
  destruct o as [f|n]; cbn [meaning op_meaning].
  - destruct (field_of (entries d) f) as [[n v]|]; [|reflexivity].
    cbv zeta. destruct (meaning _ ops) as [[d2 hs] rs]. reflexivity.
  - destruct (meaning _ ops) as [[d2 hs] rs]. reflexivity.
Qed.

Lemma op_step_ok m t dst o : wf t -> op_typed o -> snd (op_step m t dst o) <> Err EIntegerOverflow ->
  exists d' h res, op_meaning (abs t) o = (d', h, res) /\ wf (conc d') /\
   (op_step m t dst o = ((conc d', dst), res) /\ h = [] /\ d' = abs t /\ res = Err EInvalidIndex \/
    res = Ok tt /\
    exists bs r, op_step m t dst o = ((conc d', dst ++ bs), res) /\ bytes bs /\ repr_wire 6 rfc_padding bs r /\
      (forall limit, resize_within limit o -> interp limit (abs t) r = inl (d', h)) /\
      (forall limit, readable limit (inner t) o -> repr_wire 5 rfc_padding bs r) /\
      match o with Send f => chosen (inner t) f r | Resize n => r = RSize n end).
Proof.
  intros Hw Ht Hno. destruct o as [f|n]; cbn [op_typed op_step] in *.
  - destruct (hencode_cases m t f dst Hw Ht) as [[Hn E]|(r & Hr & [[Hs H]|[Hs H]])].
    + cbn [op_meaning]. change (entries (abs t)) with (inner t). rewrite Hn.
      exists (abs t), [], (Err EInvalidIndex). rewrite conc_abs by exact Hw.
      split; [reflexivity|]. split; [exact Hw|]. left. auto.
    + destruct H as (bs & d' & hs & E & Hi & Hwd & H6 & H5 & Hb).
      destruct (chosen_meaning 0 (abs t) f r Hr) as (n & v & Ef & Hint). pose proof (Hi 0) as Hi0. rewrite Hint in Hi0.
      injection Hi0 as Hd Hh.
      cbn [op_meaning]. rewrite Ef. exists d', hs, (Ok tt). split; [rewrite <- Hd, <- Hh; reflexivity|]. split; [exact Hwd|].
      right. split; [reflexivity|]. exists bs, r. split; [exact E|]. split; [exact Hb|]. split; [exact H6|].
      split; [intros limit _; apply Hi|]. split; [|exact Hr]. intros limit Hrd. apply H5. apply Hrd. exact Hr.
    + destruct H as (d' & hs & junk & E & _). rewrite E in Hno. cbn in Hno. congruence.
  - destruct (encoder_update_ok m t n dst Hw Ht) as (bs & E & H6 & H5 & Hb & Hw').
    cbn [op_meaning]. eexists _, _, _. split; [reflexivity|]. split; [exact Hw'|].
    right. split; [reflexivity|]. exists bs, (RSize n). split; [exact E|]. split; [exact Hb|]. split; [exact H6|].
    split; [|split; [|reflexivity]].
    + intros limit Hl. cbn [resize_within] in Hl. cbn [interp]. apply N.leb_le in Hl. rewrite Hl. reflexivity.
    + intros limit [_ Hr]. apply H5. exact Hr.
Qed.

(* What the session puts on the wire is a sequence of RFC 7541 representations
   that means what the operations mean. *)
Theorem session_wide m limit ops : forall t dst, wf t -> Forall op_typed ops -> Forall (resize_within limit) ops ->
  no_overflow (snd (run_ops m t dst ops)) ->
  exists out prs d' hs,
    run_ops m t dst ops = (conc d', dst ++ out, snd (meaning (abs t) ops)) /\
    fst (meaning (abs t) ops) = (d', hs) /\
    out = wire_octets prs /\ wires 6 rfc_padding prs /\ bytes out /\
    interp_all limit (abs t) (reprs prs) = Some (d', hs).
Proof.
  induction ops as [|o ops IH]; intros t dst Hw Hty Hl Hno.
  - exists [], [], (abs t), []. cbn. rewrite conc_abs, app_nil_r by exact Hw.
    repeat (split; [reflexivity || constructor|]). reflexivity.
  - inversion Hty as [|? ? T1 T2]; inversion Hl as [|? ? L1 L2]; subst. rewrite run_ops_cons in *.
    assert (N1 : snd (op_step m t dst o) <> Err EIntegerOverflow).
    { intros E. destruct (op_step m t dst o) as [[t1 dst1] r1]. cbn in E. subst r1. apply Hno.
      destruct (run_ops m t1 dst1 ops) as [[? ?] ?]. left. reflexivity. }
    destruct (op_step_ok m t dst o Hw T1 N1) as (d1 & h & res & Em & Hw1 & C).
    rewrite meaning_cons, Em.
    destruct C as [(E & -> & -> & ->)|(-> & bs & r & E & Hb & H6 & Hi & _)]; rewrite E in *.
    + rewrite conc_abs in * by exact Hw.
      assert (N2 : no_overflow (snd (run_ops m t dst ops))).
      { intros I. apply Hno. destruct (run_ops m t dst ops) as [[? ?] ?]. right. exact I. }
      destruct (IH t dst Hw T2 L2 N2) as (out & prs & d' & hs & Hrun & Hm & Ho & Hp & Hb & Hia).
      rewrite Hrun. destruct (meaning (abs t) ops) as [[d2 hs2] rs2]. cbn in Hm. injection Hm as -> ->.
      exists out, prs, d', hs. cbn [fst snd app]. repeat (split; [reflexivity || assumption|]). exact Hia.
    + assert (N2 : no_overflow (snd (run_ops m (conc d1) (dst ++ bs) ops))).
      { intros I. apply Hno. destruct (run_ops m (conc d1) (dst ++ bs) ops) as [[? ?] ?]. right. exact I. }
      destruct (IH (conc d1) (dst ++ bs) Hw1 T2 L2 N2) as (out & prs & d' & hs & Hrun & Hm & Ho & Hp & Hb' & Hia).
      rewrite abs_conc in *. rewrite Hrun. destruct (meaning d1 ops) as [[d2 hs2] rs2]. cbn in Hm. injection Hm as -> ->.
      exists (bs ++ out), ((bs, r) :: prs), d', (h ++ hs). cbn [fst snd]. rewrite app_assoc.
      split; [reflexivity|]. split; [reflexivity|]. split; [rewrite Ho; reflexivity|].
      split; [constructor; assumption|]. split; [apply bytes_app; auto|].
      cbn [reprs map snd interp_all]. rewrite (Hi limit L1). fold (reprs prs). rewrite Hia. reflexivity.
Qed.

(* ------------------------------------------------------------------ *)
(* A representation the decoder cannot read is reported, never misread. *)
Lemma wire6_long p hi bs v rest : prefix_ok p -> int_wire 6 p hi bs v ->
  int_wire 5 p hi bs v \/ long_int p hi (bs ++ rest).
Proof.
  intros Hp H. destruct (Nat.le_gt_cases (length bs) 5) as [L|L].
  - left. eapply int_wire_le; [exact H|exact L].
  - right. inversion H as [v0 Hv Hl|t r Ht Hl]; subst; cbn [length] in L; [lia|].
    exists (firstn 4 t), (skipn 4 t ++ rest). split; [|split].
    + cbn [app]. rewrite app_assoc, firstn_skipn. reflexivity.
    + eapply leb_front; [exact Ht|lia].
    + rewrite firstn_length. lia.
Qed.

Lemma string6_long h bs s rest : string_wire 6 rfc_padding h bs s ->
  string_wire 5 code_padding h bs s \/ string_fault (bs ++ rest) Long.
Proof.
  intros H. destruct H as [lb s H|lb e s r H Hb Hs Hp]; rewrite <- app_assoc.
  - destruct (wire6_long 7 0 lb _ (s ++ rest) p7 H) as [W|W]; [left; constructor; exact W|].
    right. apply (sf_int 0); [lia|]. constructor. exact W.
  - destruct (wire6_long 7 1 lb _ (e ++ rest) p7 H) as [W|W].
    + left. econstructor; eauto. apply rfc_padding_accepted. exact Hp.
    + right. apply (sf_int 1); [lia|]. constructor. exact W.
Qed.

Lemma repr6_long limit d bs r x rest : repr_wire 6 rfc_padding bs r -> interp limit d r = x ->
  repr_wire 5 code_padding bs r \/ (exists e, x = inr e) \/ repr_fault (entries d) (bs ++ rest) Long.
Proof.
  intros H Hx. destruct H as [bs i H|k bi i hv bv v H Hi Hv|k bi hn bn n hv bv v H Hn Hv|bs n H].
  - destruct (wire6_long 7 1 bs _ rest p7 H) as [W|W]; [left; constructor; exact W|].
    right. right. apply rf_indexed. constructor. exact W.
  - destruct (wire6_long _ _ bi _ (bv ++ rest) (kp_ok k) H) as [W|W].
    + cbn [interp resolve] in Hx. destruct (lookup (entries d) i) as [e|] eqn:El.
      * destruct (string6_long hv bv v rest Hv) as [S|S].
        { left. constructor; auto. }
        right. right. rewrite <- app_assoc. eapply rf_value1; eauto.
      * right. left. cbn in Hx. eauto.
    + right. right. rewrite <- app_assoc. eapply rf_name_index. constructor. exact W.
  - destruct (wire6_long _ _ bi _ (bn ++ bv ++ rest) (kp_ok k) H) as [W|W].
    + destruct (string6_long hn bn n (bv ++ rest) Hn) as [S|S].
      * destruct (string6_long hv bv v rest Hv) as [S'|S'].
        { left. constructor; auto. }
        right. right. rewrite <- !app_assoc. eapply rf_value2; eauto.
      * right. right. rewrite <- !app_assoc. eapply rf_name; eauto.
    + right. right. rewrite <- !app_assoc. eapply rf_name_index. constructor. exact W.
  - destruct (wire6_long 5 1 bs _ rest p5 H) as [W|W]; [left; constructor; exact W|].
    right. right. apply rf_size. constructor. exact W.
Qed.

(* Reading one representation, then the rest. *)
Lemma hdecode_step m d bs r rest d1 h dst : wf (dtable d) -> bytes (bs ++ rest) ->
  repr_wire 5 code_padding bs r -> interp (dlimit d) (abs (dtable d)) r = inl (d1, h) -> wf (conc d1) ->
  exists k, hdecode m d (bs ++ rest) dst =
    (fst (hdecode m (set_table d (conc d1)) rest (dst ++ h)),
     add_count k (snd (hdecode m (set_table d (conc d1)) rest (dst ++ h)))).
Proof.
  intros Hw Hb Hr Hi Hw1.
  pose proof (hdecode_ok m d [(bs, r)] [] d1 h Done dst Hw) as H.
  unfold wire_octets in H. cbn [map concat fst] in H. rewrite !app_nil_r in H.
  assert (Hbs : bytes bs) by (apply bytes_app in Hb; tauto).
  specialize (H Hbs). cbn [reprs map snd interp_all] in H. rewrite Hi, app_nil_r in H.
  assert (Hws : wires 5 code_padding [(bs, r)]) by (constructor; [exact Hr|constructor]).
  specialize (H Hws eq_refl (ends_done _ _)). cbn [stop_outcome] in H.
  destruct (hdecode_concat m m m d bs rest dst _ _ _ _ Hw Hb H) as [_ E]. eauto.
Qed.

Lemma hdecode_stop m d rest s dst : wf (dtable d) -> bytes rest -> ends (dlimit d) (abs (dtable d)) rest s ->
  hdecode m d rest dst = ((d, rest, dst), stop_outcome s 0).
Proof.
  intros Hw Hb He.
  pose proof (hdecode_ok m d [] rest (abs (dtable d)) [] s dst Hw Hb (Forall_nil _) eq_refl He) as H.
  cbn in H. rewrite app_nil_r, set_table_same in H by exact Hw. exact H.
Qed.

Lemma hdecode_rest m d buf dst d1 rest dst1 o : wf (dtable d) -> bytes buf ->
  hdecode m d buf dst = ((d1, rest, dst1), o) -> (length rest <= length buf)%nat.
Proof.
  intros Hw Hb H. destruct (hdecode_total m d buf dst Hw Hb) as (prs & r & d' & hs & s & E1 & _ & _ & _ & _ & E2).
  rewrite H in E2. injection E2 as _ -> _ _. rewrite E1, app_length. lia.
Qed.

(* Either the decoder delivers everything, or it stops with an error exactly in
   front of an operation it cannot read, having delivered all the earlier ones. *)
Theorem no_silent_desync m m' ops : forall d t dst0, wf t -> dtable d = t -> Forall op_typed ops ->
  no_overflow (snd (run_ops m t [] ops)) ->
  exists t' out, run_ops m t [] ops = (t', out, snd (meaning (abs t) ops)) /\
    wf t' /\ bytes out /\ delivers_or_stops m d t ops t' out dst0 (hdecode m' d out dst0).
Proof.
  induction ops as [|o ops IH]; intros d t dst0 Hw Hd Hty Hno.
  - exists t, []. split; [reflexivity|]. split; [exact Hw|]. split; [constructor|]. left. exists 0.
    rewrite (hdecode_stop m' d [] Done dst0); [|rewrite Hd; exact Hw|constructor|constructor].
    cbn. rewrite app_nil_r, <- Hd. destruct d; reflexivity.
  - inversion Hty as [|? ? T1 T2]; subst. rewrite run_ops_cons in *.
    assert (N1 : snd (op_step m (dtable d) [] o) <> Err EIntegerOverflow).
    { intros E. destruct (op_step m (dtable d) [] o) as [[t1 dst1] r1]. cbn in E. subst r1. apply Hno.
      destruct (run_ops m t1 dst1 ops) as [[? ?] ?]. left. reflexivity. }
    destruct (op_step_ok m (dtable d) [] o Hw T1 N1) as (d1 & h & res & Em & Hw1 & C).
    rewrite meaning_cons, Em.
    assert (Hrun1 : forall dd bs, op_step m (dtable d) [] o = ((conc dd, bs), res) ->
              run_ops m (dtable d) [] [o] = (conc dd, bs, [res])).
    { intros dd bs E. rewrite run_ops_cons, E. reflexivity. }
    destruct C as [(E & -> & -> & ->)|(-> & bs & r & E & Hb & H6 & Hi & H5 & Ho)]; rewrite E in *.
    + rewrite conc_abs in * by exact Hw.
      assert (N2 : no_overflow (snd (run_ops m (dtable d) [] ops))).
      { intros I. apply Hno. destruct (run_ops m (dtable d) [] ops) as [[? ?] ?]. right. exact I. }
      destruct (IH d (dtable d) dst0 Hw eq_refl T2 N2) as (t' & out & Hrun & Hw' & Hbo & Hdel).
      rewrite Hrun.
      exists t', out. split; [destruct (meaning (abs (dtable d)) ops) as [[? ?] ?]; reflexivity|]. split; [exact Hw'|]. split; [exact Hbo|].
      destruct Hdel as [(n & Hx)|(ops1 & o' & ops2 & t1 & out1 & rs1 & rest & e & E1 & E2 & E3 & Hnr & Hx & He)].
      * left. exists n. rewrite Hx. rewrite meaning_cons, Em. destruct (meaning (abs (dtable d)) ops) as [[? ?] ?]. reflexivity.
      * right. exists (o :: ops1), o', ops2, t1, out1, (Err EInvalidIndex :: rs1), rest, e.
        split; [rewrite E1; reflexivity|]. split; [rewrite run_ops_cons, E, E2; reflexivity|].
        split; [exact E3|]. split; [exact Hnr|]. split; [|exact He].
        rewrite Hx, meaning_cons, Em. destruct (meaning (abs (dtable d)) ops1) as [[? ?] ?]. reflexivity.
    + cbn [app] in E.
      destruct (run_ops_same m m ops (conc d1) ([] ++ bs) [] Hw1 T2) as (t' & out & rs & R1 & R2).
      assert (N2 : no_overflow (snd (run_ops m (conc d1) [] ops))).
      { intros I. apply Hno. rewrite R1. rewrite R2 in I. right. exact I. }
      destruct (IH (set_table d (conc d1)) (conc d1) (dst0 ++ h) Hw1 eq_refl T2 N2) as (t'' & out'' & Hrun & Hw' & Hbo & Hdel).
      rewrite R2 in Hrun. injection Hrun as <- <- ->. rewrite abs_conc in *. rewrite R1.
      exists t', (bs ++ out). split; [destruct (meaning d1 ops) as [[? ?] ?]; reflexivity|]. split; [exact Hw'|].
      assert (Hbb : bytes (bs ++ out)) by (apply bytes_app; auto). split; [exact Hbb|].
      (* continue after this representation *)
      assert (Hcont : repr_wire 5 code_padding bs r -> interp (dlimit d) (abs (dtable d)) r = inl (d1, h) ->
                delivers_or_stops m d (dtable d) (o :: ops) t' (bs ++ out) dst0 (hdecode m' d (bs ++ out) dst0)).
      { intros W I. destruct (hdecode_step m' d bs r out d1 h dst0 Hw Hbb W I Hw1) as (k & ->).
        destruct Hdel as [(n & Hx)|(ops1 & o' & ops2 & t1 & out1 & rs1 & rest & e & E1 & E2 & E3 & Hnr & Hx & He)]; rewrite Hx.
        - left. exists (k + n). rewrite meaning_cons, Em, abs_conc. destruct (meaning d1 ops) as [[? ?] ?]. cbn.
          rewrite <- app_assoc. reflexivity.
        - right. destruct (run_ops_same m m ops1 (conc d1) bs [] Hw1) as (t1' & out1' & rs1' & Q1 & Q2).
          { rewrite E1 in T2. apply Forall_app in T2. tauto. }
          rewrite E2 in Q2. injection Q2 as <- <- <-.
          exists (o :: ops1), o', ops2, t1, (bs ++ out1), (Ok tt :: rs1), rest, e.
          split; [rewrite E1; reflexivity|]. split; [rewrite run_ops_cons, E, Q1; reflexivity|].
          split; [rewrite E3, app_assoc; reflexivity|]. split; [exact Hnr|]. split; [|exact He].
          rewrite meaning_cons, Em, abs_conc. destruct (meaning d1 ops1) as [[? ?] ?]. cbn [fst snd].
          rewrite <- app_assoc. reflexivity. }
      (* stop here *)
      assert (Hstop : forall s, ends (dlimit d) (abs (dtable d)) (bs ++ out) s ->
                (s = Fault Long \/ s = Refused BadSize /\ exists n, o = Resize n /\ dlimit d < n) ->
                delivers_or_stops m d (dtable d) (o :: ops) t' (bs ++ out) dst0 (hdecode m' d (bs ++ out) dst0)).
      { intros s Hends Hs. right.
        pose proof (hdecode_stop m' d (bs ++ out) s dst0 Hw Hbb Hends) as Hx.
        assert (Hnr : ~ readable (dlimit d) (inner (dtable d)) o).
        { intros Hr.
          assert (Hrw : resize_within (dlimit d) o) by (destruct o; [exact I|exact (proj1 Hr)]).
          pose proof (repr_wire_pad 5 rfc_padding code_padding bs r rfc_code_padding (H5 _ Hr)) as W.
          destruct (hdecode_step m' d bs r out d1 h dst0 Hw Hbb W (Hi _ Hrw) Hw1) as (k & Hy).
          destruct (hdecode m' (set_table d (conc d1)) out (dst0 ++ h)) as [[[d2 rest2] dst2] o2] eqn:E2.
          cbn [fst snd] in Hy. rewrite Hx in Hy. injection Hy as _ Hrest _ _.
          pose proof (hdecode_rest m' (set_table d (conc d1)) out (dst0 ++ h) _ _ _ _ Hw1 Hbo E2) as L.
          pose proof (repr_wire_nonempty _ _ _ _ W) as L2. rewrite <- Hrest, app_length in L. lia. }
        exists [], o, ops, (dtable d), [], [], (bs ++ out).
        exists (match s with Refused _ => DInvalidMaxDynamicSize | _ => DIntegerOverflow end).
        split; [reflexivity|]. split; [reflexivity|]. split; [reflexivity|]. split; [exact Hnr|]. split.
        - rewrite Hx. cbn [meaning fst snd]. rewrite app_nil_r.
          replace (set_table d (dtable d)) with d by (destruct d; reflexivity).
          destruct Hs as [->|[-> _]]; reflexivity.
        - destruct Hs as [->|[-> Hs]]; auto. }
      destruct (interp (dlimit d) (abs (dtable d)) r) as [[d1' h1']|e] eqn:I.
      * destruct (repr6_long (dlimit d) (abs (dtable d)) bs r _ out H6 I) as [W|[(e & W)|W]].
        -- apply Hcont; [exact W|]. rewrite <- I. apply Hi.
           destruct o as [f|n]; [exact Logic.I|]. subst r. cbn [interp] in I. cbn [resize_within].
           destruct (N.leb_spec n (dlimit d)); [assumption|discriminate I].
        -- discriminate W.
        -- apply (Hstop (Fault Long)); [constructor; exact W|auto].
      * destruct o as [f|n].
        { rewrite (Hi (dlimit d) Logic.I) in I. discriminate I. }
        subst r. cbn [interp] in I. destruct (N.leb_spec n (dlimit d)) as [L|L]; [discriminate I|].
        injection I as <-. inversion H6 as [| | |? ? H6']; subst.
        destruct (wire6_long 5 1 bs n out p5 H6') as [W|W].
        -- apply (Hstop (Refused BadSize)).
           ++ apply (ends_refused (dlimit d) (abs (dtable d)) bs (RSize n) out); [constructor; exact W|].
              cbn [interp]. apply N.leb_gt in L. rewrite L. reflexivity.
           ++ right. split; [reflexivity|]. exists n. auto.
        -- apply (Hstop (Fault Long)); [|auto]. constructor. apply rf_size. constructor. exact W.
Qed.
