(* Property theorem C81: protobuf fields over a stream of octets under every schedule.
   The vocabulary is at the head of ProtosSession.v. *)
From Verif Require Import Base Leb ProtosModel ProtosSpec ProtosApi ProtosNum ProtosEnc ProtosDec ProtosDerived ProtosMore
  ProtosIo ProtosIoProofs ProtosSession ProtosConv.
Open Scope N_scope.

(* C81: ws are the fields on the wire (tag, wire type, payload) of the fields sent and
   parts their octets.  At any moment what was decoded is a beginning of ws, every call of
   decode so far returned Ok, and decoding what is in the buffer and on the wire to the
   end yields exactly ws and a decoder as new.  When a call of decode makes no progress,
   every field delivered completely has been decoded. *)
Theorem C81_stream : forall m evs ws parts,
  Forall good_field (psent evs) -> Forall2 carries (psent evs) ws -> Forall2 field_wire ws parts ->
  let '(c, vs) := prun m pstart evs in
  exists a k p,
    a ++ ps_wire c = concat parts /\ ps_got c = firstn k ws /\ ps_dec c = decoder_of p /\ idle p /\
    Forall (fun v => exists n, v = Ok n) vs /\
    decode_fully m (ps_dec c) (ps_rx c ++ ps_wire c) (ps_got c) = ((pdecoder_default, [], ws), Ok tt) /\
    (forall st, pdecode m (ps_dec c) (ps_rx c) (ps_got c) = (st, Ok 0) ->
       st = (ps_dec c, ps_rx c, ps_got c) /\ exists a', complete parts a k a').
Proof. exact field_stream. Qed.
Print Assumptions C81_stream.

(* In terms of the values: what was decoded so far is, one by one, what was sent first. *)
Theorem C81_values : forall m evs, Forall good_field (psent evs) ->
  let '(c, vs) := prun m pstart evs in
  exists k, Forall2 (fun f w => carries f w /\ reads_back m (snd f) (snd w)) (firstn k (psent evs)) (ps_got c) /\
    (ps_wire c = [] -> forall st, pdecode m (ps_dec c) (ps_rx c) (ps_got c) = (st, Ok 0) -> firstn k (psent evs) = psent evs).
Proof.
  intros m evs Hg. destruct (fields_exist _ Hg) as (ws & parts & Hc & Hf).
  pose proof (field_stream m evs ws parts Hg Hc Hf) as H. destruct (prun m pstart evs) as [c vs].
  destruct H as (a & k & p & Ea & Eg & Ed & Hp & Hv & Hfull & Hq). exists k. split.
  - rewrite Eg. clear -Hg Hc. revert k. induction Hc as [|f w fs ws Hfw Hc IH]; intros [|k]; cbn [firstn]; try constructor.
    + split; [exact Hfw|]. destruct Hfw as [_ Hw]. inversion Hg as [|x y (Ht & Hl & Hs) Hg']; subst. eapply reads_back_all; eauto.
    + inversion Hg; subst. auto.
  - intros Hw st Hst. destruct (Hq st Hst) as [-> (a' & Ha & _ & Hnth)].
    assert (L : (length parts <= k)%nat).
    { destruct (nth_error parts k) as [part|] eqn:E; [|now apply nth_error_None]. exfalso.
      specialize (Hnth part eq_refl). rewrite Hw, app_nil_r in Ea. rewrite Ha in Ea. clear Ha.
      rewrite <- (firstn_skipn k parts), concat_app in Ea. rewrite firstn_app, firstn_firstn, Nat.min_id in Ea.
      assert (firstn (k - length (firstn k parts)) (skipn k parts) = []) as E0.
      { rewrite firstn_length. assert (k < length parts)%nat by (apply nth_error_Some; congruence).
        replace (k - Nat.min k (length parts))%nat with 0%nat by lia. reflexivity. }
      rewrite E0, app_nil_r in Ea. apply app_inv_head in Ea.
      apply nth_error_split in E as (l1 & l2 & E1 & E2). rewrite E1 in Ea. rewrite skipn_app in Ea.
      rewrite <- E2, skipn_all, Nat.sub_diag in Ea. cbn [app skipn concat] in Ea. subst a'. rewrite app_length in Hnth. lia. }
    rewrite firstn_all2; [reflexivity|].
    assert (F : forall A B (R : A -> B -> Prop) l l', Forall2 R l l' -> length l = length l').
    { intros A B R l l' HH. induction HH; cbn; congruence. }
    pose proof (F _ _ _ _ _ Hc). pose proof (F _ _ _ _ _ Hf). lia.
Qed.
Print Assumptions C81_values.

(* Two fields, the first one empty, in portions of 1, 2 and 3 octets. *)
Definition drip_fields : list pevent :=
  [PSend (1, EBytes []); PSend (2, EUInt32 300); PDeliver 1; PDecode; PDeliver 2; PDecode; PDecode; PDeliver 3; PDecode; PDecode].
Example C81_case : forall m,
  Forall good_field (psent drip_fields) /\
  prun m pstart drip_fields =
   (mkPS [] [] pdecoder_default [(1, LengthDelimited, []); (2, Varint, [172; 2])], [Ok 1; Ok 1; Ok 1; Ok 2; Ok 0]) /\
  prun m pstart (firstn 6 drip_fields) =
   (mkPS [172; 2] [16] pdecoder_default [(1, LengthDelimited, [])], [Ok 1; Ok 1]).
Proof.
  intros m. refine (conj _ (conj _ _)); [|destruct m; reflexivity|destruct m; reflexivity].
  repeat constructor; try discriminate.
  - intros t p [_ ->]. reflexivity.
  - intros t p [_ H].
    assert (S : shortest 300 [172; 2]).
    { exact (shortest_big 300 [2] ltac:(lia) (shortest_small 2 eq_refl)). }
    rewrite (shortest_unique _ _ _ H S). reflexivity.
Qed.
