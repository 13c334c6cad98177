(* Encoders and decoders whose tables differ: different maximum sizes, and recovery. *)
From Verif Require Import Base HuffModel HuffSpec HpackStatic HpackModel HpackSpec HpackApi HpackTab HpackDec HpackEnc HpackDerived.
Open Scope list_scope.
Open Scope N_scope.

(* ------------------------------------------------------------------ *)
(* Specification vocabulary: the larger table has the entries of the smaller one as its
   newest entries, in the same order, and at least its maximum size. *)
Definition holds_more (small large : dyn) : Prop :=
  prefix (entries small) (entries large) /\ max_size small <= max_size large.

(* ------------------------------------------------------------------ *)
Lemma fit_mono k : forall l a b, prefix k l -> a <= b -> prefix (fit a k) (fit b l).
Proof.
  induction k as [|e k IH]; intros l a b [x ->] H; cbn [fit app]; [exists (fit b x); reflexivity|].
  destruct (line_size e <=? a) eqn:E; [|eexists; reflexivity].
  apply N.leb_le in E. replace (line_size e <=? b) with true by (symmetry; apply N.leb_le; lia).
  destruct (IH (k ++ x) (a - line_size e) (b - line_size e)) as [y Hy]; [now exists x|lia|]. exists y. cbn. now rewrite Hy.
Qed.

Lemma lookup_more k l i e : prefix k l -> lookup k i = Some e -> lookup l i = Some e.
Proof.
  intros [x ->] H. unfold lookup in *. destruct (i =? 0); [discriminate|]. rewrite app_assoc, nth_error_app1; [exact H|].
  apply nth_error_Some. congruence.
Qed.

Lemma insert_more d D e : holds_more d D -> holds_more (insert d e) (insert D e).
Proof.
  intros [[x Hp] Hm]. split; [|exact Hm]. unfold insert. cbn [entries]. apply fit_mono; [|exact Hm]. exists x. cbn. now rewrite Hp.
Qed.
Lemma resize_more d D n : holds_more d D -> holds_more (resize d n) (resize D n).
Proof. intros [Hp _]. split; [|apply N.le_refl]. unfold resize. cbn [entries]. apply fit_mono; [exact Hp|lia]. Qed.

Lemma resolve_more d D nr n : holds_more d D -> resolve d nr = Some n -> resolve D nr = Some n.
Proof.
  intros [Hp _]. destruct nr as [i|h s]; cbn [resolve]; [|auto].
  destruct (lookup (entries d) i) as [e|] eqn:E; [|discriminate]. now rewrite (lookup_more _ _ _ _ Hp E).
Qed.

(* What the smaller table gives, the larger gives. *)
Lemma interp_more limit d D r d' hs : holds_more d D -> interp limit d r = inl (d', hs) ->
  exists D', interp limit D r = inl (D', hs) /\ holds_more d' D'.
Proof.
  intros H. destruct r as [i|k nr h v|n]; cbn [interp].
  - destruct (lookup (entries d) i) as [[n v]|] eqn:E; [|discriminate]. intros [= <- <-].
    rewrite (lookup_more _ _ _ _ (proj1 H) E). eauto.
  - destruct (resolve d nr) as [n|] eqn:E; [|discriminate]. intros [= <- <-]. rewrite (resolve_more _ _ _ _ H E).
    eexists. split; [reflexivity|]. destruct k; auto using insert_more.
  - destruct (n <=? limit); [|discriminate]. intros [= <- <-]. eauto using resize_more.
Qed.

Lemma interp_all_more limit rs : forall d D d' hs, holds_more d D -> interp_all limit d rs = Some (d', hs) ->
  exists D', interp_all limit D rs = Some (D', hs) /\ holds_more d' D'.
Proof.
  induction rs as [|r rs IH]; intros d D d' hs H; cbn [interp_all]; [intros [= <- <-]; eauto|].
  destruct (interp limit d r) as [[d1 h1]|] eqn:E1; [|discriminate].
  destruct (interp_all limit d1 rs) as [[d2 h2]|] eqn:E2; [|discriminate]. intros [= <- <-].
  destruct (interp_more limit d D r d1 h1 H E1) as (D1 & -> & H1). destruct (IH _ _ _ _ H1 E2) as (D2 & -> & H2). eauto.
Qed.

(* What the larger table gives, the smaller gives or refuses. *)
Lemma interp_less limit d D r D' hs : holds_more d D -> interp limit D r = inl (D', hs) ->
  interp limit d r = inr BadIndex \/ exists d', interp limit d r = inl (d', hs) /\ holds_more d' D'.
Proof.
  intros H E. destruct (interp limit d r) as [[d1 h1]|e] eqn:E1.
  - right. destruct (interp_more limit d D r d1 h1 H E1) as (D1 & E2 & H2). rewrite E in E2. injection E2 as <- <-. eauto.
  - left. destruct r as [i|k nr h v|n]; cbn [interp] in *.
    + destruct (lookup (entries d) i) as [[? ?]|]; congruence.
    + destruct (resolve d nr); congruence.
    + destruct (n <=? limit); discriminate.
Qed.

Lemma interp_all_less limit prs : forall d D D' hs, holds_more d D -> interp_all limit D (reprs prs) = Some (D', hs) ->
  (exists d', interp_all limit d (reprs prs) = Some (d', hs) /\ holds_more d' D') \/
  (exists p1 pr p2 d1 h1 h2, prs = p1 ++ pr :: p2 /\ interp_all limit d (reprs p1) = Some (d1, h1) /\
     interp limit d1 (snd pr) = inr BadIndex /\ hs = h1 ++ h2).
Proof.
  induction prs as [|pr prs IH]; intros d D D' hs H; cbn [reprs map interp_all]; [intros [= <- <-]; eauto|].
  fold (reprs prs). destruct (interp limit D (snd pr)) as [[D1 h1]|] eqn:E1; [|discriminate].
  destruct (interp_all limit D1 (reprs prs)) as [[D2 h2]|] eqn:E2; [|discriminate]. intros [= <- <-].
  destruct (interp_less limit d D (snd pr) D1 h1 H E1) as [E|(d1 & E & H1)].
  - right. exists [], pr, prs, d, [], (h1 ++ h2). auto.
  - rewrite E. destruct (IH d1 D1 D2 h2 H1 E2) as [(d2 & -> & H2)|(p1 & pr' & p2 & d2 & g1 & g2 & -> & E3 & E4 & ->)].
    + left. eauto.
    + right. exists (pr :: p1), pr', p2, d2, (h1 ++ g1), g2. split; [reflexivity|]. split.
      * cbn [reprs map interp_all]. fold (reprs p1). rewrite E, E3. reflexivity.
      * split; [exact E4|now rewrite app_assoc].
Qed.

(* ------------------------------------------------------------------ *)
(* Sessions. *)
Theorem larger_decoder m m' ops d t dst0 : wf t -> wf (dtable d) -> dlimit d < 2 ^ 32 -> Forall (op_ok (dlimit d)) ops ->
  holds_more (abs t) (abs (dtable d)) ->
  exists t' out d' n,
    run_ops m t [] ops = (t', out, snd (meaning (abs t) ops)) /\
    hdecode m' d out dst0 = ((set_table d d', [], dst0 ++ snd (fst (meaning (abs t) ops))), Ok n) /\
    wf t' /\ wf d' /\ holds_more (abs t') (abs d').
Proof.
  intros Hw Hwd Hl Hops Hm. destruct (session_ok m (dlimit d) ops t [] Hw Hl Hops)
    as (out & prs & t1 & hs & Hrun & Hme & Ho & Hp & Hb & Hi).
  destruct (interp_all_more _ _ _ _ _ _ Hm Hi) as (D' & Hi' & Hm').
  assert (Hp' : wires 5 code_padding prs).
  { eapply Forall_impl; [|exact Hp]. intros [b r]. simpl. apply repr_wire_pad. apply rfc_code_padding. }
  exists (conc t1), out, (conc D'), (counted prs). simpl app in Hrun. split; [exact Hrun|]. rewrite Hme. cbn [snd]. split.
  - rewrite <- (app_nil_r out), Ho. rewrite (hdecode_ok m' d prs [] D' hs Done dst0); auto.
    + rewrite app_nil_r, <- Ho. exact Hb.
    + constructor.
  - rewrite !abs_conc. split; [|split; [|exact Hm']].
    + apply (interp_all_wf (dlimit d) prs (abs t) t1 hs); auto. unfold wfd. now rewrite conc_abs.
    + apply (interp_all_wf (dlimit d) prs (abs (dtable d)) D' hs); auto. unfold wfd. now rewrite conc_abs.
Qed.

Theorem smaller_decoder m m' ops d t dst0 : wf t -> wf (dtable d) -> dlimit d < 2 ^ 32 -> Forall (op_ok (dlimit d)) ops ->
  holds_more (abs (dtable d)) (abs t) ->
  exists t' out d' rest hs1 hs2 v,
    run_ops m t [] ops = (t', out, snd (meaning (abs t) ops)) /\
    hdecode m' d out dst0 = ((set_table d d', rest, dst0 ++ hs1), v) /\
    snd (fst (meaning (abs t) ops)) = hs1 ++ hs2 /\ wf d' /\
    ((exists n, v = Ok n) /\ rest = [] /\ hs2 = [] /\ holds_more (abs d') (abs t') \/ v = Err DInvalidIndex).
Proof.
  intros Hw Hwd Hl Hops Hm. destruct (session_ok m (dlimit d) ops t [] Hw Hl Hops)
    as (out & prs & t1 & hs & Hrun & Hme & Ho & Hp & Hb & Hi).
  assert (Hp' : wires 5 code_padding prs).
  { eapply Forall_impl; [|exact Hp]. intros [b r]. simpl. apply repr_wire_pad. apply rfc_code_padding. }
  assert (Hwdd : wfd (abs (dtable d))) by (unfold wfd; now rewrite conc_abs).
  rewrite Hme. cbn [snd]. simpl app in Hrun.
  destruct (interp_all_less _ _ _ _ _ _ Hm Hi) as [(D' & Hi' & Hm')|(p1 & pr & p2 & d1 & h1 & h2 & Ep & Hi' & Hbad & ->)].
  - exists (conc t1), out, (conc D'), [], hs, [], (Ok (counted prs)). rewrite app_nil_r, !abs_conc. split; [exact Hrun|]. split.
    + rewrite <- (app_nil_r out), Ho. rewrite (hdecode_ok m' d prs [] D' hs Done dst0); auto.
      * rewrite app_nil_r, <- Ho. exact Hb.
      * constructor.
    + split; [reflexivity|]. split; [exact (interp_all_wf (dlimit d) prs _ _ _ Hwdd Hp' Hi')|]. left. eauto.
  - subst prs. unfold wires in Hp'. apply Forall_app in Hp' as [Hp1 Hp2]. inversion Hp2 as [|? ? Hpr Hp3]; subst.
    assert (Eo : wire_octets (p1 ++ pr :: p2) = wire_octets p1 ++ fst pr ++ wire_octets p2).
    { unfold wire_octets. rewrite map_app, concat_app. reflexivity. }
    exists (conc t1), (wire_octets (p1 ++ pr :: p2)), (conc d1), (fst pr ++ wire_octets p2), h1, h2, (Err DInvalidIndex).
    split; [exact Hrun|]. rewrite Eo in Hb |- *. split.
    + rewrite (hdecode_ok m' d p1 (fst pr ++ wire_octets p2) d1 h1 (Refused BadIndex) dst0); auto.
      apply (ends_refused _ _ (fst pr) (snd pr)); [exact Hpr|exact Hbad].
    + split; [reflexivity|]. split; [exact (interp_all_wf (dlimit d) p1 _ _ _ Hwdd Hp1 Hi')|]. now right.
Qed.

(* Clearing the table makes encoder and decoder forget the past, and agree. *)
Theorem resync m m' ops d t dst0 : wf t -> wf (dtable d) -> dlimit d < 2 ^ 32 -> Forall (op_ok (dlimit d)) ops ->
  exists t' out n,
    run_ops m t [] (Resize 0 :: ops) = (t', out, Ok tt :: snd (meaning (mkdyn [] 0) ops)) /\
    abs t' = fst (fst (meaning (mkdyn [] 0) ops)) /\
    hdecode m' d out dst0 = ((set_table d t', [], dst0 ++ snd (fst (meaning (mkdyn [] 0) ops))), Ok n) /\
    forall t2, wf t2 -> run_ops m t2 [] (Resize 0 :: ops) = (t', out, Ok tt :: snd (meaning (mkdyn [] 0) ops)).
Proof.
  intros Hw Hwd Hl Hops.
  assert (Z : forall l, fit 0 l = []).
  { intros [|e l]; [reflexivity|]. cbn [fit]. replace (line_size e <=? 0) with false; [reflexivity|].
    symmetry. apply N.leb_gt. unfold line_size. lia. }
  (* the first representation is the size update *)
  assert (Wz : wf (mkDyn [] 0 0)) by (repeat split; vm_compute; (reflexivity || discriminate)).
  assert (Run : forall t2, wf t2 -> run_ops m t2 [] (Resize 0 :: ops) =
    let '(t'', out', rs) := run_ops m (mkDyn [] 0 0) [32] ops in (t'', out', Ok tt :: rs)).
  { intros t2 H2. cbn [run_ops]. destruct (encoder_update_ok m t2 0 [] H2 ltac:(reflexivity)) as (bs & E & _).
    unfold encoder_update_max in *. destruct (@table_update_ok enc_error m t2 0 H2 ltac:(reflexivity)) as [E2 _].
    rewrite E2. unfold resize, abs, conc. cbn [entries max_size]. rewrite Z. reflexivity. }
  destruct (session_ok m (dlimit d) ops (mkDyn [] 0 0) [32] Wz Hl Hops) as (out2 & prs2 & t2 & hs2 & Hrun2 & Hme2 & Ho2 & Hp2 & Hb2 & Hi2).
  change (abs (mkDyn [] 0 0)) with (mkdyn [] 0) in *.
  assert (Hp' : wires 5 code_padding prs2).
  { eapply Forall_impl; [|exact Hp2]. intros [b r]. simpl. apply repr_wire_pad. apply rfc_code_padding. }
  exists (conc t2), (32 :: out2), (counted (([32], RSize 0) :: prs2)). split; [|split; [|split]].
  - rewrite (Run t Hw), Hrun2. reflexivity.
  - rewrite abs_conc, Hme2. reflexivity.
  - rewrite Hme2. cbn [snd].
    replace (32 :: out2) with (wire_octets (([32], RSize 0) :: prs2) ++ []) by (rewrite app_nil_r, Ho2; reflexivity).
    rewrite (hdecode_ok m' d (([32], RSize 0) :: prs2) [] t2 hs2 Done dst0); auto.
    + rewrite app_nil_r. cbn [wire_octets map concat fst app]. fold (wire_octets prs2). rewrite <- Ho2. constructor; [reflexivity|exact Hb2].
    + constructor; [|exact Hp']. cbn [fst snd]. constructor. exact (int_short 5 5 1 0 ltac:(reflexivity) ltac:(lia)).
    + cbn [reprs map interp_all snd interp]. replace (0 <=? dlimit d) with true by (symmetry; apply N.leb_le; lia).
      fold (reprs prs2). unfold resize, abs. cbn [entries]. rewrite Z, Hi2. reflexivity.
    + constructor.
  - intros t3 H3. rewrite (Run t3 H3), Hrun2. reflexivity.
Qed.
