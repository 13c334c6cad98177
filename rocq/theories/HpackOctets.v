(* A connection whose octets arrive in arbitrary portions.

   As HpackConn.v, but the wire is a stream of octets: a delivery can stop anywhere,
   also inside a representation.  The decoder of this crate answers IntegerUnderflow to
   such input or panics (C15); a caller that catches the panic (catch_unwind) goes on
   with the decoder, buffer and destination as the call left them. *)
From Verif Require Import Base HuffModel HuffSpec Leb HpackStatic HpackModel HpackSpec HpackApi HpackInt HpackStr HpackTab HpackDec HpackEnc HpackDerived HpackMore HpackConn.
Open Scope list_scope.
Open Scope N_scope.

(* ------------------------------------------------------------------ *)
(* Specification vocabulary: the events are those of HpackConn.v, only that
   [EvDeliver k] now delivers the first k octets on the wire. *)
Record stream := mkStream {
  s_enc : table;                 (* the encoder *)
  s_wire : list N;               (* octets on the wire *)
  s_rx : list N;                 (* the receive buffer *)
  s_dec : decoder;
  s_got : list out_header        (* everything decoded so far *)
}.

Definition stream_step (m m' : mode) (c : stream) (ev : event) : stream * list (outcome dec_error N) :=
  match ev with
  | EvSend o =>
      let '((t, bs), _) := match o with
                           | Send f => hencode m (s_enc c) f []
                           | Resize n => encoder_update_max m (s_enc c) n []
                           end in
      (mkStream t (s_wire c ++ bs) (s_rx c) (s_dec c) (s_got c), [])
  | EvDeliver k =>
      (mkStream (s_enc c) (skipn k (s_wire c)) (s_rx c ++ firstn k (s_wire c)) (s_dec c) (s_got c), [])
  | EvDecode =>
      let '((d, rest, got), v) := hdecode m' (s_dec c) (s_rx c) (s_got c) in
      (mkStream (s_enc c) (s_wire c) rest d got, [v])
  | EvExact cap =>
      let '((d, rest, got), v) := hdecode_exact m' cap (s_dec c) (s_rx c) (s_got c) in
      (mkStream (s_enc c) (s_wire c) rest d got, [v])
  | EvLimit n => (mkStream (s_enc c) (s_wire c) (s_rx c) (decoder_set_max (s_dec c) n) (s_got c), [])
  end.

Fixpoint stream_run (m m' : mode) (c : stream) (evs : list event) : stream * list (outcome dec_error N) :=
  match evs with
  | [] => (c, [])
  | ev :: evs' =>
      let '(c1, v) := stream_step m m' c ev in
      let '(c2, vs) := stream_run m m' c1 evs' in (c2, v ++ vs)
  end.

Definition stream_start (t : table) (d : decoder) : stream := mkStream t [] [] d [].

(* ------------------------------------------------------------------ *)
(* Decoding a part of what an encoder wrote. *)
Definition cut_verdict (v : outcome dec_error N) : Prop := v = Err DIntegerUnderflow \/ v = Panic.

Lemma exact_part m m' ops cap d t a b rs dst0 t2 d1 rest got v : wf t -> dtable d = t -> clean m t ops ->
  run_ops m t [] ops = (t2, a ++ b, rs) ->
  hdecode_exact m' cap d a dst0 = ((d1, rest, got), v) ->
  exists ops1 ops2 t3 out1 rs1 rs2,
    ops = ops1 ++ ops2 /\ run_ops m t [] ops1 = (t3, out1, rs1) /\ d1 = set_table d t3 /\
    got = dst0 ++ headers (abs t) ops1 /\ run_ops m t3 [] ops2 = (t2, rest ++ b, rs2) /\
    (verdict_ok v \/ cut_verdict v) /\
    (forall e, v = Err e -> e <> DIntegerUnderflow -> exists o ops3, ops2 = o :: ops3 /\
       ~ readable (dlimit d) (inner t3) o /\
       (e = DIntegerOverflow \/ e = DInvalidMaxDynamicSize /\ exists n, o = Resize n /\ dlimit d < n)).
Proof.
  intros Hw Hd Hc Hrun Hx.
  destruct (clean_run m t ops Hw Hc) as (t' & out & R & W2 & Bo & _). rewrite Hrun in R. injection R as <- <- _.
  assert (Ba : bytes a) by (apply bytes_app in Bo; tauto).
  assert (Hwd : wf (dtable d)) by (rewrite Hd; exact Hw).
  destruct (hdecode_exact_total m' cap d a dst0 Hwd Ba) as (prs & rest' & d' & hs & s & Ea & Hp & Hl & Hi & Hs & Hw' & Hx').
  rewrite Hx in Hx'. injection Hx' as -> -> -> ->.
  assert (Hb : bytes (wire_octets prs ++ rest' ++ b)) by (rewrite app_assoc, <- Ea; exact Bo).
  assert (Eab : a ++ b = wire_octets prs ++ rest' ++ b) by (rewrite Ea, app_assoc; reflexivity).
  (* the same position is reached with everything delivered *)
  assert (Y : exists cap' s', hdecode_exact m' cap' d (wire_octets prs ++ rest' ++ b) dst0 =
      ((set_table d (conc d'), rest' ++ b, dst0 ++ hs), stop_outcome s' (counted prs)) /\
      (s' = s \/ cut_verdict (stop_outcome s (counted prs)) /\ s' = Done)).
  { destruct Hs as [[E ->]|[Hlt He]].
    - exists (List.length prs), Done. split; [|left; reflexivity].
      exact (hdecode_exact_ok m' (List.length prs) d prs (rest' ++ b) d' hs Done dst0 Hwd Hb Hp Hi (or_introl (conj eq_refl eq_refl))).
    - assert (C : (s = Done \/ s = Fault Cut \/ s = Fault Short) \/ (s <> Done /\ s <> Fault Cut /\ s <> Fault Short)).
      { destruct s as [|[]|]; auto; right; repeat split; discriminate. }
      destruct C as [C|(C1 & C2 & C3)].
      + exists (List.length prs), Done. split.
        * exact (hdecode_exact_ok m' (List.length prs) d prs (rest' ++ b) d' hs Done dst0 Hwd Hb Hp Hi (or_introl (conj eq_refl eq_refl))).
        * destruct C as [->|[->| ->]]; [left; reflexivity|right|right]; (split; [|reflexivity]); [right|left]; reflexivity.
      + exists (S (List.length prs)), s. split; [|left; reflexivity].
        apply (hdecode_exact_ok m' (S (List.length prs)) d prs (rest' ++ b) d' hs s dst0 Hwd Hb Hp Hi).
        right. split; [apply Nat.lt_succ_diag_r|]. apply ends_ext; assumption. }
  destruct Y as (cap' & s' & Hy & Hss).
  destruct (exact_reads m m' ops cap' d t dst0 Hw Hd (proj1 Hc) (proj2 Hc)) as (t'' & out & R & _ & _ & Hr).
  rewrite Hrun in R. injection R as <- <- Ers. rewrite Eab, Hy in Hr.
  destruct Hr as (ops1 & ops2 & t3 & out1 & rs1 & rest2 & v2 & -> & R1 & E3 & Hz & Hv2).
  pose proof (f_equal snd Hz) as Ev. pose proof (f_equal fst Hz) as Hz1. cbn [fst snd] in Ev, Hz1. clear Hz.
  assert (Ex : set_table d (conc d') = set_table d t3 /\ rest' ++ b = rest2 /\ dst0 ++ hs = dst0 ++ headers (abs t) ops1)
    by (injection Hz1 as E1 E2 E4; unfold set_table; rewrite E1; auto).
  destruct Ex as (E4 & <- & E5). clear Hz1.
  destruct (clean_app m t ops1 ops2 Hw Hc) as [C1 C2]. specialize (C2 _ _ _ R1).
  destruct (clean_run m t ops1 Hw C1) as (t' & ? & R & W3 & _ & A3). rewrite R1 in R. injection R as <- <- ->.
  destruct (clean_run m t3 ops2 W3 C2) as (t' & out2 & R2 & W4 & _ & _).
  pose proof (run_ops_app0 m ops1 ops2 t _ _ _ _ _ _ W3 (proj1 C2) R1 R2) as R3.
  rewrite Hrun in R3. injection R3 as <- E6 _. rewrite Eab, E3 in E6. apply app_inv_head in E6. subst out2.
  exists ops1, ops2, t3. eexists _, _, _.
  split; [reflexivity|]. split; [exact R1|]. split; [exact E4|]. split; [exact E5|]. split; [exact R2|].
  split.
  - destruct Hss as [->|[Hcut _]]; [|right; exact Hcut]. left. rewrite Ev.
    destruct Hv2 as [[Hn _]|(e & o & q3 & -> & _ & _ & [->|[-> _]])]; [left; exact Hn|right; auto|right; auto].
  - intros e He Hne. destruct Hss as [->|[[Hcut|Hcut] _]]; [|congruence|congruence].
    rewrite He in Ev. subst v2.
    destruct Hv2 as [[(n & Hn) _]|(e' & o & q3 & Hee & -> & Hnr & Hwhy)]; [discriminate Hn|].
    injection Hee as <-. exists o, q3. auto.
Qed.

(* ------------------------------------------------------------------ *)
(* The invariant: [done] calls are decoded, the octets of [todo] are underway. *)
Definition stream_inv (m : mode) (t0 : table) (ops : list op) (c : stream) : Prop :=
  exists done todo t1 out1 rs1 rs2,
    ops = done ++ todo /\ run_ops m t0 [] done = (t1, out1, rs1) /\ dtable (s_dec c) = t1 /\
    s_got c = headers (abs t0) done /\ run_ops m t1 [] todo = (s_enc c, s_rx c ++ s_wire c, rs2).

Lemma stream_wf m t0 ops c : wf t0 -> clean m t0 ops -> stream_inv m t0 ops c ->
  wf (dtable (s_dec c)) /\ bytes (s_rx c ++ s_wire c) /\ wf (s_enc c).
Proof.
  intros Hw Hc (done & todo & t1 & out1 & rs1 & rs2 & -> & E1 & E2 & _ & E4).
  destruct (clean_app m t0 done todo Hw Hc) as [C1 C2]. specialize (C2 _ _ _ E1).
  destruct (clean_run m t0 done Hw C1) as (t' & ? & R & W1 & _). rewrite E1 in R. injection R as <- _ _.
  destruct (clean_run m t1 todo W1 C2) as (t' & ? & R & W2 & B2 & _). rewrite E4 in R. injection R as <- <- _.
  rewrite E2. auto.
Qed.

Lemma stream_exact m m' t0 ops c cap : wf t0 -> clean m t0 ops -> stream_inv m t0 ops c ->
  let '((d, rest, got), v) := hdecode_exact m' cap (s_dec c) (s_rx c) (s_got c) in
  stream_inv m t0 ops (mkStream (s_enc c) (s_wire c) rest d got) /\ (verdict_ok v \/ cut_verdict v).
Proof.
  intros Hw Hc (done & todo & t1 & out1 & rs1 & rs2 & -> & E1 & E2 & E3 & E4).
  destruct (clean_app m t0 done todo Hw Hc) as [C1 C2]. specialize (C2 _ _ _ E1).
  destruct (clean_run m t0 done Hw C1) as (t' & ? & R & W1 & _ & A1). rewrite E1 in R. injection R as <- _ _.
  destruct (hdecode_exact m' cap (s_dec c) (s_rx c) (s_got c)) as [[[d rest] got] v] eqn:Hx.
  destruct (exact_part m m' todo cap (s_dec c) t1 _ _ _ _ _ _ _ _ _ W1 E2 C2 E4 Hx)
    as (q1 & q2 & t3 & o1 & r1 & r2 & -> & R1 & -> & -> & R2 & Hv & _).
  split; [|exact Hv].
  destruct (clean_app m t1 q1 q2 W1 C2) as [C3 _].
  exists (done ++ q1), q2, t3, (out1 ++ o1), (rs1 ++ r1), r2.
  split; [rewrite <- app_assoc; reflexivity|].
  split; [exact (run_ops_app0 m done q1 t0 _ _ _ _ _ _ W1 (proj1 C3) E1 R1)|].
  split; [reflexivity|]. split; [cbn [s_got]; rewrite E3, headers_app, <- A1; reflexivity|exact R2].
Qed.

Lemma stream_decode m m' t0 ops c : wf t0 -> clean m t0 ops -> stream_inv m t0 ops c ->
  let '((d, rest, got), v) := hdecode m' (s_dec c) (s_rx c) (s_got c) in
  stream_inv m t0 ops (mkStream (s_enc c) (s_wire c) rest d got) /\ (verdict_ok v \/ cut_verdict v).
Proof.
  intros Hw Hc Hi. destruct (stream_wf m t0 ops c Hw Hc Hi) as (W1 & B & _).
  apply bytes_app in B as [B _].
  rewrite (decode_is_exact m' (s_dec c) (s_rx c) (s_got c) W1 B). exact (stream_exact m m' t0 ops c _ Hw Hc Hi).
Qed.

Lemma stream_send m t0 ops c o t bs r : wf t0 -> clean m t0 (ops ++ [o]) -> stream_inv m t0 ops c ->
  op_step m (s_enc c) [] o = ((t, bs), r) ->
  stream_inv m t0 (ops ++ [o]) (mkStream t (s_wire c ++ bs) (s_rx c) (s_dec c) (s_got c)).
Proof.
  intros Hw Hc' Hi Eo. destruct (clean_app m t0 ops [o] Hw Hc') as [Hc _].
  pose proof (stream_wf m t0 ops c Hw Hc Hi) as (_ & _ & We).
  destruct Hi as (done & todo & t1 & out1 & rs1 & rs2 & -> & E1 & E2 & E3 & E4).
  assert (To : Forall op_typed [o]) by (destruct Hc' as [T _]; apply Forall_app in T; tauto).
  assert (Ro : run_ops m (s_enc c) [] [o] = (t, bs, [r])) by (rewrite run_ops_cons, Eo; reflexivity).
  exists done, (todo ++ [o]), t1, out1, rs1, (rs2 ++ [r]).
  split; [rewrite app_assoc; reflexivity|]. repeat (split; [assumption|]).
  cbn [s_enc s_rx s_wire]. rewrite app_assoc. exact (run_ops_app0 m todo [o] t1 _ _ _ _ _ _ We To E4 Ro).
Qed.

Lemma stream_run_app m m' a : forall b c, stream_run m m' c (a ++ b) =
  let '(c1, v1) := stream_run m m' c a in let '(c2, v2) := stream_run m m' c1 b in (c2, v1 ++ v2).
Proof.
  induction a as [|ev a IH]; intros b c; cbn [app stream_run].
  - destruct (stream_run m m' c b). reflexivity.
  - destruct (stream_step m m' c ev) as [c1 v]. rewrite IH. destruct (stream_run m m' c1 a) as [c2 v2].
    destruct (stream_run m m' c2 b) as [c3 v3]. rewrite app_assoc. reflexivity.
Qed.

Lemma stream_run_inv m m' t0 d0 evs : wf t0 -> dtable d0 = t0 -> clean m t0 (sent evs) ->
  let '(c, vs) := stream_run m m' (stream_start t0 d0) evs in
  stream_inv m t0 (sent evs) c /\ Forall (fun v => verdict_ok v \/ cut_verdict v) vs.
Proof.
  intros Hw Hd. induction evs as [|ev evs IH] using rev_ind; intros Hc.
  - cbn. split; [|constructor]. exists [], [], t0, [], [], []. cbn. auto 10.
  - rewrite sent_app in *. destruct (clean_app m t0 (sent evs) (sent [ev]) Hw Hc) as [Hc0 _]. specialize (IH Hc0).
    rewrite stream_run_app. destruct (stream_run m m' (stream_start t0 d0) evs) as [c vs]. destruct IH as [Hi Hv].
    cbn [stream_run]. destruct ev as [o|k| |cap|n]; cbn [stream_step sent] in *.
    + fold (op_step m (s_enc c) [] o). destruct (op_step m (s_enc c) [] o) as [[t bs] r] eqn:Eo.
      cbn [app]. rewrite app_nil_r. split; [|exact Hv]. exact (stream_send m t0 _ c o t bs r Hw Hc Hi Eo).
    + rewrite !app_nil_r. split; [|exact Hv].
      destruct Hi as (done & todo & t1 & out1 & rs1 & rs2 & E0 & E1 & E2 & E3 & E4).
      exists done, todo, t1, out1, rs1, rs2. repeat (split; [assumption|]).
      cbn [s_enc s_rx s_wire]. rewrite <- app_assoc, firstn_skipn. exact E4.
    + rewrite app_nil_r. pose proof (stream_decode m m' t0 _ c Hw Hc0 Hi) as H.
      destruct (hdecode m' (s_dec c) (s_rx c) (s_got c)) as [[[d rest] got] v].
      cbn [app]. split; [tauto|]. apply Forall_app. split; [exact Hv|]. constructor; [tauto|constructor].
    + rewrite app_nil_r. pose proof (stream_exact m m' t0 _ c cap Hw Hc0 Hi) as H.
      destruct (hdecode_exact m' cap (s_dec c) (s_rx c) (s_got c)) as [[[d rest] got] v].
      cbn [app]. split; [tauto|]. apply Forall_app. split; [exact Hv|]. constructor; [tauto|constructor].
    + rewrite !app_nil_r. split; [|exact Hv]. exact Hi.
Qed.

Theorem octet_stream m m' t0 d0 evs : wf t0 -> dtable d0 = t0 -> Forall op_typed (sent evs) ->
  no_overflow (snd (run_ops m t0 [] (sent evs))) ->
  let '(c, vs) := stream_run m m' (stream_start t0 d0) evs in
  exists done todo,
    sent evs = done ++ todo /\
    s_got c = headers (abs t0) done /\
    wf (dtable (s_dec c)) /\ abs (dtable (s_dec c)) = table_after (abs t0) done /\
    wf (s_enc c) /\ abs (s_enc c) = table_after (abs t0) (sent evs) /\
    s_rx c ++ s_wire c = snd (fst (run_ops m (dtable (s_dec c)) [] todo)) /\
    Forall (fun v => verdict_ok v \/ cut_verdict v) vs /\
    (Forall (op_ok (dlimit (s_dec c))) todo ->
     exists n, stream_run m m' c [EvDeliver (List.length (s_wire c)); EvDecode] =
       (mkStream (s_enc c) [] [] (set_table (s_dec c) (s_enc c)) (headers (abs t0) (sent evs)), [Ok n])).
Proof.
  intros Hw Hd Hty Hno. pose proof (stream_run_inv m m' t0 d0 evs Hw Hd (conj Hty Hno)) as H.
  pose proof (conj Hty Hno : clean m t0 (sent evs)) as Hc.
  destruct (stream_run m m' (stream_start t0 d0) evs) as [c vs]. destruct H as [Hi Hv].
  destruct (stream_wf m t0 _ c Hw Hc Hi) as (Wd & Brx & We).
  destruct Hi as (done & todo & t1 & out1 & rs1 & rs2 & E0 & E1 & E2 & E3 & E4).
  rewrite E0 in Hc.
  destruct (clean_app m t0 done todo Hw Hc) as [C1 C2]. specialize (C2 _ _ _ E1).
  destruct (clean_run m t0 done Hw C1) as (t' & ? & R & W1 & _ & A1). rewrite E1 in R. injection R as <- _ _.
  pose proof (run_ops_app0 m done todo t0 _ _ _ _ _ _ W1 (proj1 C2) E1 E4) as Rtot.
  exists done, todo. split; [exact E0|]. split; [exact E3|]. split; [exact Wd|]. split; [rewrite E2; exact A1|].
  split; [exact We|]. split.
  { destruct (clean_run m t0 (done ++ todo) Hw Hc) as (t' & ? & R & _ & _ & A). rewrite Rtot in R.
    injection R as <- _ _. rewrite E0. exact A. }
  split; [rewrite E2, E4; reflexivity|]. split; [exact Hv|].
  intros Hok. cbn [stream_run stream_step s_enc s_wire s_rx s_dec s_got].
  rewrite firstn_all, skipn_all.
  destruct (no_silent_desync m m' todo (s_dec c) t1 (s_got c) W1 E2 (proj1 C2) (proj2 C2)) as (t' & out & R & _ & _ & Hdel).
  rewrite E4 in R. injection R as <- <- Ers.
  destruct Hdel as [(n & Hx)|(ops1 & o & ops2 & t3 & out4 & rs4 & rest & e & Eo & _ & _ & Hnr & _)].
  - rewrite Hx. exists n. fold (headers (abs t1) todo).
    rewrite E3, E0, (headers_app (abs t0)), <- A1. reflexivity.
  - exfalso. apply Hnr, op_ok_readable. rewrite Eo in Hok. apply Forall_app in Hok as [_ Hok]. inversion Hok; subst. assumption.
Qed.

(* Why a decoder call does not succeed. *)
Theorem octet_stream_verdict m m' t0 d0 evs : wf t0 -> dtable d0 = t0 -> Forall op_typed (sent evs) ->
  no_overflow (snd (run_ops m t0 [] (sent evs))) ->
  let '(c, _) := stream_run m m' (stream_start t0 d0) evs in
  forall d1 rest got v,
  (hdecode m' (s_dec c) (s_rx c) (s_got c) = ((d1, rest, got), v) \/
   exists cap, hdecode_exact m' cap (s_dec c) (s_rx c) (s_got c) = ((d1, rest, got), v)) ->
  exists done todo,
    sent evs = done ++ todo /\ got = headers (abs t0) done /\ abs (dtable d1) = table_after (abs t0) done /\
    rest ++ s_wire c = snd (fst (run_ops m (dtable d1) [] todo)) /\
    ((exists n, v = Ok n) \/
     (exists o todo', todo = o :: todo' /\ ~ readable (dlimit (s_dec c)) (entries (table_after (abs t0) done)) o /\
        (v = Err DIntegerOverflow \/ v = Err DInvalidMaxDynamicSize /\ exists n, o = Resize n /\ dlimit (s_dec c) < n)) \/
     cut_verdict v /\ forall q w, todo = q ++ w -> rest <> snd (fst (run_ops m (dtable d1) [] q))).
Proof.
  intros Hw Hd Hty Hno. pose proof (stream_run_inv m m' t0 d0 evs Hw Hd (conj Hty Hno)) as H.
  pose proof (conj Hty Hno : clean m t0 (sent evs)) as Hc.
  destruct (stream_run m m' (stream_start t0 d0) evs) as [c vs]. destruct H as [Hi _].
  destruct (stream_wf m t0 _ c Hw Hc Hi) as (Wd & Brx & _).
  apply bytes_app in Brx as [Brx _].
  intros d1 rest got v Hx.
  assert (G : exists cap, hdecode_exact m' cap (s_dec c) (s_rx c) (s_got c) = ((d1, rest, got), v)).
  { destruct Hx as [Hx|Hx]; [|exact Hx]. rewrite (decode_is_exact m' _ _ _ Wd Brx) in Hx. eauto. }
  clear Hx. destruct G as (cap & Hx).
  destruct Hi as (done & todo & t1 & out1 & rs1 & rs2 & E0 & E1 & E2 & E3 & E4).
  rewrite E0 in *.
  destruct (clean_app m t0 done todo Hw Hc) as [C1 C2]. specialize (C2 _ _ _ E1).
  destruct (clean_run m t0 done Hw C1) as (t' & ? & R & W1 & _ & A1). rewrite E1 in R. injection R as <- _ _.
  destruct (exact_part m m' todo cap (s_dec c) t1 _ _ _ _ _ _ _ _ _ W1 E2 C2 E4 Hx)
    as (q1 & q2 & t3 & o1 & r1 & r2 & -> & R1 & -> & -> & R2 & Hv & Hwhy).
  destruct (clean_app m t1 q1 q2 W1 C2) as [C3 C4]. specialize (C4 _ _ _ R1).
  destruct (clean_run m t1 q1 W1 C3) as (t' & ? & R & W3 & _ & A3). rewrite R1 in R. injection R as <- _ _.
  assert (At : abs t3 = table_after (abs t0) (done ++ q1)).
  { rewrite A3, A1. unfold table_after. rewrite meaning_app. destruct (meaning (abs t0) done) as [[x1 h1] r0]. cbn [fst snd].
    destruct (meaning x1 q1) as [[? ?] ?]. reflexivity. }
  exists (done ++ q1), q2. split; [rewrite <- app_assoc; reflexivity|].
  split; [rewrite E3, headers_app, <- A1; reflexivity|]. split; [exact At|].
  cbn [dtable set_table]. split; [rewrite R2; reflexivity|].
  destruct Hv as [[Hn|Hv]|Hv]; [left; exact Hn| |].
  - right. left. destruct Hv as [->| ->].
    + destruct (Hwhy _ eq_refl ltac:(discriminate)) as (o & q3 & -> & Hnr & Hy). exists o, q3.
      split; [reflexivity|]. split; [rewrite <- At; exact Hnr|left; reflexivity].
    + destruct (Hwhy _ eq_refl ltac:(discriminate)) as (o & q3 & -> & Hnr & [Hy|[_ Hy]]); [discriminate Hy|]. exists o, q3.
      split; [reflexivity|]. split; [rewrite <- At; exact Hnr|right; auto].
  - right. right. split; [exact Hv|]. intros q w Eq Er.
    (* the calls q are complete in what is left: then the decoder does not stop for lack of input *)
    subst q2. destruct (clean_app m t3 q w W3 C4) as [C5 _].
    assert (Bx : bytes rest).
    { destruct (clean_run m t3 (q ++ w) W3 C4) as (? & ? & R & _ & Bb & _). rewrite R2 in R. injection R as _ <- _.
      apply bytes_app in Bb; tauto. }
    destruct (hdecode_exact_total m' cap (s_dec c) (s_rx c) (s_got c) Wd Brx)
      as (prs & rest' & d' & hs & s & Ea & Hp & Hl & Hint & Hs & Hw' & Hx').
    rewrite Hx in Hx'.
    assert (Ex : t3 = conc d' /\ rest = rest' /\ v = stop_outcome s (counted prs)).
    { pose proof (f_equal snd Hx') as Q1. pose proof (f_equal (fun z => dtable (fst (fst (fst z)))) Hx') as Q2.
      pose proof (f_equal (fun z => snd (fst (fst z))) Hx') as Q3. cbn in Q1, Q2, Q3. auto. }
    destruct Ex as (Et & <- & ->).
    assert (He : ends (dlimit (s_dec c)) d' rest s).
    { destruct Hs as [[_ ->]|[_ He]]; [|exact He]. destruct Hv as [Hv|Hv]; discriminate Hv. }
    pose proof (exact_stop m' 0 (set_table (s_dec c) t3) rest s [] W3 Bx) as Hq. cbn [dlimit dtable set_table] in Hq.
    assert (Ad : abs t3 = d') by (rewrite Et, abs_conc; reflexivity).
    rewrite Ad in Hq. specialize (Hq He).
    destruct (exact_reads m m' q 1 (set_table (s_dec c) t3) t3 [] W3 eq_refl (proj1 C5) (proj2 C5)) as (t5 & out5 & R5 & _ & _ & Hr5).
    rewrite R5 in Er. cbn [fst snd] in Er. subst out5. rewrite Hq in Hr5.
    destruct Hr5 as (p1 & p2 & t6 & o6 & rs6 & rest6 & v6 & _ & _ & _ & Hz6 & Hv6).
    pose proof (f_equal snd Hz6) as Q. cbn [snd] in Q. subst v6.
    destruct Hv6 as [[(n & Hn) _]|(e6 & o & ops3 & He6 & _ & _ & Hwhy6)].
    + destruct Hv as [Hv|Hv]; destruct s as [|[]|]; discriminate Hv || discriminate Hn.
    + destruct Hv as [Hv|Hv]; destruct s as [|[]|]; cbn in Hv, He6; try discriminate Hv; try discriminate He6;
        injection He6 as <-; destruct Hwhy6 as [Hy|[Hy _]]; try discriminate Hy; try discriminate Hv.
      all: congruence.
Qed.
