(* Protobuf fields sent over a stream of octets, under every schedule.

   The environment below is not code of the repository: a caller that uses
   Encoder::encode on one side and Decoder::decode on the other, in any order.  Its
   steps are the modelled API calls of ProtosModel.v. *)
From Verif Require Import Base Leb ProtosModel ProtosSpec ProtosApi ProtosNum ProtosEnc ProtosDec ProtosDerived ProtosMore
  ProtosIo ProtosIoProofs.
Open Scope N_scope.

(* ------------------------------------------------------------------ *)
(* Specification vocabulary. *)
Inductive pevent :=
| PSend (f : N * encoder_lit)   (* Encoder::encode, the octets are put on the wire *)
| PDeliver (k : nat)            (* the first k octets on the wire arrive in the buffer *)
| PDecode.                      (* one call of Decoder::decode on the buffer *)

Record pstream := mkPS {
  ps_wire : list N;              (* octets on the wire *)
  ps_rx : list N;                (* the receive buffer *)
  ps_dec : pdecoder;
  ps_got : list pfield           (* everything decoded so far *)
}.

(* One event; the second component is the verdict of a decoder call. *)
Definition pstep_event (m : mode) (c : pstream) (ev : pevent) : pstream * list (outcome pdec_error N) :=
  match ev with
  | PSend f =>
      (mkPS (ps_wire c ++ written (fst (pencode (fst f) (snd f) (vec_sink [])))) (ps_rx c) (ps_dec c) (ps_got c), [])
  | PDeliver k => (mkPS (skipn k (ps_wire c)) (ps_rx c ++ firstn k (ps_wire c)) (ps_dec c) (ps_got c), [])
  | PDecode =>
      let '((d, rest, got), v) := pdecode m (ps_dec c) (ps_rx c) (ps_got c) in
      (mkPS (ps_wire c) rest d got, [v])
  end.

Fixpoint prun (m : mode) (c : pstream) (evs : list pevent) : pstream * list (outcome pdec_error N) :=
  match evs with
  | [] => (c, [])
  | ev :: evs' =>
      let '(c1, v) := pstep_event m c ev in
      let '(c2, vs) := prun m c1 evs' in (c2, v ++ vs)
  end.

Definition pstart : pstream := mkPS [] [] pdecoder_default [].

(* The fields sent, in order. *)
Fixpoint psent (evs : list pevent) : list (N * encoder_lit) :=
  match evs with
  | [] => []
  | PSend f :: evs' => f :: psent evs'
  | _ :: evs' => psent evs'
  end.

(* ------------------------------------------------------------------ *)
(* One call of decode, seen from repeated calls. *)
Lemma one_call m p a dst d1 r1 dst1 v : bytes a -> idle p ->
  pdecode m (decoder_of p) a dst = ((d1, r1, dst1), v) ->
  (exists n, v = Ok n) /\
    (exists p1, d1 = decoder_of p1 /\ idle p1 /\
     forall b, bytes b -> decode_fully m (decoder_of p) (a ++ b) dst = decode_fully m d1 (r1 ++ b) dst1) \/
  forall b, snd (decode_fully m (decoder_of p) (a ++ b) dst) <> Ok tt.
Proof.
  intros Ha Hp E.
  destruct (pdecode_total m p a dst Ha (idle_sane p Hp)) as (a0 & p1 & hs & rest & p2 & hs2 & o & -> & Hi & Hc & E').
  rewrite E in E'. injection E' as -> -> -> ->.
  apply bytes_app in Ha as [_ Hr].
  pose proof (call_ends_idle m p1 rest p2 hs2 o Hc (items_sane _ _ _ _ _ _ Hi (idle_sane p Hp))) as Hp2.
  assert (I2 : items m false p a0 p2 (hs ++ hs2)).
  { rewrite <- (app_nil_r a0). apply items_app with p1; [now apply items_weaken|].
    destruct Hc as [p1 rest o Ho|tag rest]; [constructor|].
    exact (items_cons m false (GotLen tag 0) [] Start [(tag, LengthDelimited, [])] [] Start []
      (item_data m tag 0 [] eq_refl) ltac:(discriminate) (items_nil m false Start)). }
  assert (D : o = Ok tt \/ o <> Ok tt) by (destruct o as [[]| | |]; auto; right; discriminate).
  destruct D as [->|No].
  - left. split; [eexists; reflexivity|]. exists p2. refine (conj eq_refl (conj Hp2 _)). intros b Hb.
    destruct (decode_fully_total m p2 (rest ++ b) (dst ++ hs ++ hs2)) as (a1 & p3 & hs3 & rest3 & o3 & Eb & Hi3 & Ho3 & Hp3 & E3).
    { now apply bytes_app. } { exact Hp2. }
    rewrite E3, <- app_assoc, Eb, app_assoc.
    rewrite (decode_fully_run m p (a0 ++ a1) p3 ((hs ++ hs2) ++ hs3) rest3 o3); auto.
    + now rewrite <- !app_assoc.
    + now apply items_app with p2.
  - right. intros b. destruct Hc as [p1 rest o Ho|tag rest]; [|congruence].
    rewrite <- app_assoc.
    rewrite (decode_fully_run m p a0 p1 (hs ++ []) (rest ++ b) o dst Hp I2 (halt_more m p1 rest o b Ho No)). exact No.
Qed.

Lemma fully_grows m p b dst : bytes b -> idle p ->
  exists hs, snd (fst (decode_fully m (decoder_of p) b dst)) = dst ++ hs.
Proof.
  intros Hb Hp. destruct (decode_fully_total m p b dst Hb Hp) as (? & ? & hs & ? & ? & _ & _ & _ & _ & ->). exists hs. reflexivity.
Qed.

(* ------------------------------------------------------------------ *)
(* The invariant; a: what has been delivered so far. *)
Definition pinv (m : mode) (parts : list (list N)) (c : pstream) : Prop :=
  exists a p, a ++ ps_wire c = concat parts /\ ps_dec c = decoder_of p /\ idle p /\ bytes (ps_rx c) /\
    forall b, bytes b -> decode_fully m pdecoder_default (a ++ b) [] = decode_fully m (ps_dec c) (ps_rx c ++ b) (ps_got c).

Lemma pencode_one f w part : good_field f -> carries f w -> field_wire w part ->
  written (fst (pencode (fst f) (snd f) (vec_sink []))) = part.
Proof.
  intros Hg Hc Hf.
  pose proof (encode_message_spec [f] [w] [part] (Forall_cons _ Hg (Forall_nil _)) (Forall2_cons _ _ Hc (Forall2_nil _))
    (Forall2_cons _ _ Hf (Forall2_nil _)) (vec_sink [])) as E.
  destruct f as [tag l], w as [[tag' t] p]. destruct Hc as (Et & Hw). destruct Hg as (Ht & Hl & Hs). cbn [fst snd] in *. subst tag'.
  rewrite (pencode_spec tag l t p part (vec_sink []) Ht Hl Hw (Hs t p Hw) Hf). reflexivity.
Qed.

Lemma pdecode_rest m p b dst d1 r1 dst1 v : bytes b -> idle p -> pdecode m (decoder_of p) b dst = ((d1, r1, dst1), v) -> bytes r1.
Proof.
  intros Hb Hp E. destruct (pdecode_total m p b dst Hb (idle_sane p Hp)) as (a0 & p1 & hs & rest & p2 & hs2 & o & -> & _ & _ & E').
  rewrite E in E'. injection E' as _ -> _ _. now apply bytes_app in Hb.
Qed.

Lemma prun_app m a : forall b c, prun m c (a ++ b) =
  let '(c1, v1) := prun m c a in let '(c2, v2) := prun m c1 b in (c2, v1 ++ v2).
Proof.
  induction a as [|ev a IH]; intros b c; cbn [app prun].
  - destruct (prun m c b). reflexivity.
  - destruct (pstep_event m c ev) as [c1 v]. rewrite IH. destruct (prun m c1 a) as [c2 v2].
    destruct (prun m c2 b) as [c3 v3]. rewrite app_assoc. reflexivity.
Qed.

Lemma psent_app a b : psent (a ++ b) = psent a ++ psent b.
Proof. induction a as [|[] a IH]; cbn; congruence. Qed.

Definition all_ok (vs : list (outcome pdec_error N)) : Prop := Forall (fun v => exists n, v = Ok n) vs.

Lemma payloads_ok fs ws : Forall good_field fs -> Forall2 carries fs ws ->
  Forall (fun f => 1 <= fst (fst f) < 2 ^ 29 /\ payload_ok (snd (fst f)) (snd f)) ws.
Proof.
  intros Hg Hc. pose proof (carried_ok false fs ws Hg ltac:(discriminate) Hc) as H. eapply Forall_impl; [|exact H]. cbn. tauto.
Qed.

Lemma prun_inv m evs : forall ws parts, Forall good_field (psent evs) -> Forall2 carries (psent evs) ws -> Forall2 field_wire ws parts ->
  let '(c, vs) := prun m pstart evs in pinv m parts c /\ all_ok vs.
Proof.
  induction evs as [|ev evs IH] using rev_ind; intros ws parts Hg Hc Hf.
  - cbn in *. inversion Hc; subst. inversion Hf; subst. split; [|constructor].
    exists [], Start. refine (conj eq_refl (conj eq_refl (conj I (conj (Forall_nil _) _)))). reflexivity.
  - rewrite psent_app in *. apply Forall_app in Hg as [Hg Hg1].
    apply Forall2_app_inv_l in Hc as (ws0 & ws1 & Hc & Hc1 & ->).
    apply Forall2_app_inv_l in Hf as (pa0 & pa1 & Hf & Hf1 & ->).
    specialize (IH ws0 pa0 Hg Hc Hf). rewrite prun_app.
    pose proof (parts_bytes _ _ _ Hg Hc Hf) as Hb0.
    destruct (prun m pstart evs) as [c vs]. destruct IH as [(a & p & Ea & Ed & Hp & Br & HF) Hv].
    cbn [prun]. destruct ev as [f|k|]; cbn [pstep_event psent] in *.
    + cbn [app]. rewrite app_nil_r. split; [|exact Hv].
      inversion Hc1 as [|x w y z Hc2 Hc3]; subst. inversion Hc3; subst.
      inversion Hf1 as [|x part y z Hf2 Hf3]; subst. inversion Hf3; subst.
      inversion Hg1 as [|x y Hg2 _]; subst.
      rewrite (pencode_one f w part Hg2 Hc2 Hf2).
      exists a, p. cbn [ps_wire ps_rx ps_dec ps_got]. rewrite concat_app. cbn [concat].
      refine (conj _ (conj Ed (conj Hp (conj Br HF)))). rewrite app_nil_r, app_assoc, Ea. reflexivity.
    + inversion Hc1; subst. inversion Hf1; subst. rewrite !app_nil_r. split; [|exact Hv].
      rewrite <- Ea in Hb0. apply bytes_app in Hb0 as [Ba Bw].
      assert (Bk : bytes (firstn k (ps_wire c))) by (rewrite <- (firstn_skipn k (ps_wire c)) in Bw; now apply bytes_app in Bw).
      exists (a ++ firstn k (ps_wire c)), p. cbn [ps_wire ps_rx ps_dec ps_got].
      refine (conj _ (conj Ed (conj Hp (conj _ _)))).
      * now rewrite <- app_assoc, firstn_skipn.
      * apply bytes_app. auto.
      * intros b Hb. rewrite <- !app_assoc. apply HF. apply bytes_app. auto.
    + inversion Hc1; subst. inversion Hf1; subst. rewrite !app_nil_r.
      rewrite Ed in *. destruct (pdecode m (decoder_of p) (ps_rx c) (ps_got c)) as [[[d rest] got] v] eqn:E. cbn [app].
      assert (Bw : bytes (ps_wire c)) by (rewrite <- Ea in Hb0; now apply bytes_app in Hb0).
      assert (Hfull : snd (decode_fully m (decoder_of p) (ps_rx c ++ ps_wire c) (ps_got c)) = Ok tt).
      { rewrite <- (HF _ Bw), Ea. rewrite (decode_message_fully m ws0 pa0 [] Hf (payloads_ok _ _ Hg Hc)). reflexivity. }
      destruct (one_call m p (ps_rx c) (ps_got c) d rest got v Br Hp E) as [[Ok1 (p1 & -> & Hp1 & H1)]|Hno];
        [|elim (Hno (ps_wire c)); exact Hfull].
      split; [|apply Forall_app; split; [exact Hv|constructor; [exact Ok1|constructor]]].
      exists a, p1. cbn [ps_wire ps_rx ps_dec ps_got].
      refine (conj Ea (conj eq_refl (conj Hp1 (conj (pdecode_rest m p _ _ _ _ _ _ Br Hp E) _)))).
      intros b Hb. rewrite (HF b Hb). exact (H1 b Hb).
Qed.

Lemma items_none m p p1 hs : items m true p [] p1 hs -> p1 = p /\ hs = [].
Proof.
  intros H. remember (@nil N) as a eqn:Ea. destruct H as [p|p bs p1 h bs' p2 hs _ Hne _]; [auto|].
  apply app_eq_nil in Ea as [-> _]. now elim (Hne eq_refl).
Qed.

(* An idle decoder that takes nothing in one call takes nothing in repeated calls. *)
Lemma quiet_fully m d b dst st : pdecode m d b dst = (st, Ok 0) -> decode_fully m d b dst = (st, Ok tt).
Proof.
  intros E. unfold decode_fully. rewrite Nat.add_1_r. cbn [decode_until]. rewrite E. destruct st as [[? ?] ?]. reflexivity.
Qed.

Theorem field_stream m evs ws parts : Forall good_field (psent evs) -> Forall2 carries (psent evs) ws -> Forall2 field_wire ws parts ->
  let '(c, vs) := prun m pstart evs in
  exists a k p,
    a ++ ps_wire c = concat parts /\ ps_got c = firstn k ws /\ ps_dec c = decoder_of p /\ idle p /\
    Forall (fun v => exists n, v = Ok n) vs /\
    decode_fully m (ps_dec c) (ps_rx c ++ ps_wire c) (ps_got c) = ((pdecoder_default, [], ws), Ok tt) /\
    (forall st, pdecode m (ps_dec c) (ps_rx c) (ps_got c) = (st, Ok 0) ->
       st = (ps_dec c, ps_rx c, ps_got c) /\ exists a', complete parts a k a').
Proof.
  intros Hg Hc Hf. pose proof (prun_inv m evs ws parts Hg Hc Hf) as H. pose proof (parts_bytes _ _ _ Hg Hc Hf) as Hb.
  destruct (prun m pstart evs) as [c vs]. destruct H as [(a & p & Ea & Ed & Hp & Br & HF) Hv].
  assert (Bw : bytes (ps_wire c)) by (rewrite <- Ea in Hb; now apply bytes_app in Hb).
  assert (Full : decode_fully m (ps_dec c) (ps_rx c ++ ps_wire c) (ps_got c) = ((pdecoder_default, [], ws), Ok tt)).
  { rewrite <- (HF _ Bw), Ea. exact (decode_message_fully m ws parts [] Hf (payloads_ok _ _ Hg Hc)). }
  assert (Pre : exists hs, ws = ps_got c ++ hs).
  { rewrite Ed in Full. destruct (fully_grows m p (ps_rx c ++ ps_wire c) (ps_got c)) as (hs & E); auto.
    - apply bytes_app. auto.
    - rewrite Full in E. exists hs. exact E. }
  destruct Pre as (hs & Ews).
  assert (Q : (exists st, pdecode m (ps_dec c) (ps_rx c) (ps_got c) = (st, Ok 0)) \/
              forall st, pdecode m (ps_dec c) (ps_rx c) (ps_got c) <> (st, Ok 0)).
  { destruct (pdecode m (ps_dec c) (ps_rx c) (ps_got c)) as [st [n| | |]]; try (right; intros ? [=]; fail).
    destruct (N.eq_dec n 0) as [->|Hn]; [left; eauto|]. right. intros st' [= _ E]. congruence. }
  destruct Q as [(st & Q)|Q].
  - pose proof (quiet_fully m _ _ _ _ Q) as Q1.
    destruct (truncated_message m (psent evs) ws parts a (ps_wire c) [] Hg Hc Hf Ea) as (k & a' & p1 & rest & Hk & Hi & D & _).
    pose proof (HF [] (Forall_nil _)) as Q2. rewrite !app_nil_r, Q1, D in Q2.
    assert (Qs : st = (ps_dec c, ps_rx c, ps_got c)).
    { rewrite Ed in *. destruct (pdecode_total m p (ps_rx c) (ps_got c) Br (idle_sane p Hp)) as (a0 & q1 & h1 & r1 & q2 & h2 & o & Er & I1 & I2 & E2).
      rewrite Q in E2. pose proof (f_equal fst E2) as E3. pose proof (f_equal snd E2) as E4. cbn [fst snd] in E3, E4.
      destruct o as [[]| | |]; cbn [with_count] in E4; try discriminate E4. injection E4 as E4.
      destruct a0; [|cbn [length] in E4; lia]. cbn [app] in Er. subst r1.
      destruct (items_none m p q1 h1 I1) as [-> ->].
      inversion I2; subst; [now rewrite !app_nil_r|]. cbn in Hp. lia. }
    assert (Eg : ps_got c = firstn k ws).
    { rewrite Qs in Q2. cbn [app] in Q2. pose proof (f_equal (fun z => snd (fst z)) Q2) as Q3. cbn [fst snd] in Q3. congruence. }
    exists a, k, p. refine (conj Ea (conj Eg (conj Ed (conj Hp (conj Hv (conj Full _)))))).
    intros st' Hst. rewrite Q in Hst. injection Hst as <-. split; [exact Qs|]. exists a'. exact Hk.
  - exists a, (length (ps_got c)), p.
    refine (conj Ea (conj _ (conj Ed (conj Hp (conj Hv (conj Full _)))))).
    + rewrite Ews, firstn_app, Nat.sub_diag, firstn_all. cbn. now rewrite app_nil_r.
    + intros st Hst. elim (Q st Hst).
Qed.
