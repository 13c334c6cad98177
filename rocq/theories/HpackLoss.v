(* Header blocks that are lost, repeated or reordered on the way (C116).

   The environment is not code of the repository: a caller that encodes each block into a
   vector of its own, a network that delivers some of the vectors, in some order, some of
   them more than once, and a caller that decodes each arriving vector with one decoder. *)
From Verif Require Import Base HuffTables HuffModel HuffSpec HuffCode Leb HpackStatic HpackModel
  HpackSpec HpackApi HpackInt HpackStr HpackTab HpackDec HpackEnc HpackDerived HpackMore HpackSizes
  HpackConn HpackSecret HpackTrust.
From Verif Require HpackReach.
Open Scope list_scope.
Open Scope N_scope.

(* ------------------------------------------------------------------ *)
(* Specification vocabulary. *)

(* A block is a list of encoder calls.  A quiet call asks for nothing to be stored. *)
Definition quiet (o : op) : Prop := match o with Send f => unindexed f | Resize _ => False end.

(* A call that neither stores anything nor can refer to a stored entry: static indices, and
   literals without the flags 0x4 (store) and 0x10 (best format). *)
Definition self_contained (o : op) : bool :=
  match o with
  | Send (Indexed i) => i <=? 61
  | Send (IndexedName i _ fl) => (i <=? 61) && negb (N.testbit fl 2)
  | Send (Literal _ _ fl) => negb (N.testbit fl 2) && negb (N.testbit fl 4)
  | Resize _ => false
  end.

(* The vectors the blocks are encoded into, each with the headers it stands for and whether
   all its calls are self-contained; and the encoder's table afterwards. *)
Record packet := mkPacket { octets_of : list N; headers_of : list out_header; free : bool }.
Fixpoint send_blocks (m : mode) (t : table) (blocks : list (list op)) : table * list packet :=
  match blocks with
  | [] => (t, [])
  | ops :: blocks' =>
      let '(t1, out, _) := run_ops m t [] ops in
      let '(t2, ps) := send_blocks m t1 blocks' in
      (t2, mkPacket out (headers (abs t) ops) (forallb self_contained ops) :: ps)
  end.

(* Decoding each arriving vector into a vector of its own; None unless all was read. *)
Fixpoint receive (m : mode) (d : decoder) (bufs : list (list N)) : decoder * list (option (list out_header)) :=
  match bufs with
  | [] => (d, [])
  | buf :: bufs' =>
      let '((d1, rest, got), v) := hdecode m d buf [] in
      let '(d2, gots) := receive m d1 bufs' in
      (d2, match v, rest with Ok _, [] => Some got | _, _ => None end :: gots)
  end.

(* What arrives is right: of each vector, exactly the headers it was sent for. *)
Definition all_right (m : mode) (d d' : decoder) (arrivals : list packet) : Prop :=
  receive m d (map octets_of arrivals) = (d', map (fun p => Some (headers_of p)) arrivals).

(* ------------------------------------------------------------------ *)
Lemma written_run m t ops : run_ops m t [] ops =
  (fst (fst (run_ops m t [] ops)), written m t ops, snd (run_ops m t [] ops)).
Proof. unfold written. now destruct (run_ops m t [] ops) as [[? ?] ?]. Qed.

(* One block, decoder in step. *)
Lemma block_read m m' ops d : wf (dtable d) -> dlimit d < 2 ^ 32 -> Forall (op_ok (dlimit d)) ops ->
  exists t' n, fst (fst (run_ops m (dtable d) [] ops)) = t' /\ wf t' /\
    hdecode m' d (written m (dtable d) ops) [] = ((set_table d t', [], headers (abs (dtable d)) ops), Ok n).
Proof.
  intros W Hl Ho. destruct (session_sync m m' ops d (dtable d) [] W eq_refl Hl Ho) as (t' & out & n & Er & _ & Ed).
  exists t', n. unfold written. rewrite Er. cbn [fst snd]. split; [reflexivity|]. split; [|exact Ed].
  assert (T : Forall op_typed ops) by (eapply Forall_impl; [|exact Ho]; intros o; now apply op_ok_typed).
  pose proof (run_ops_wf m ops (dtable d) [] W T) as X. rewrite Er in X. apply X.
Qed.

(* Quiet blocks leave the table alone. *)
Lemma quiet_kept m ops : forall t dst, wf t -> Forall op_typed ops -> Forall quiet ops -> fst (fst (run_ops m t dst ops)) = t.
Proof.
  induction ops as [|o ops IH]; intros t dst W T Q; [reflexivity|]. inversion T as [|? ? T1 T2]; inversion Q as [|? ? Q1 Q2]; subst.
  rewrite run_ops_cons. destruct o as [f|n]; [|contradiction]. cbn [op_step op_typed quiet] in *.
  pose proof (unindexed_kept m t f dst W T1 Q1) as E. destruct (hencode m t f dst) as [[t1 dst1] r]. cbn [fst] in E. subst t1.
  specialize (IH t dst1 W T2 Q2). destruct (run_ops m t dst1 ops) as [[a b] c]. exact IH.
Qed.

Lemma same_dec d t : dtable d = t -> set_table d t = d.
Proof. intros <-. now destruct d. Qed.

Lemma ops_typed limit ops : limit < 2 ^ 32 -> Forall (op_ok limit) ops -> Forall op_typed ops.
Proof. intros L H. eapply Forall_impl; [|exact H]. intros o. now apply op_ok_typed. Qed.

Lemma quiet_sent m limit blocks t : wf t -> limit < 2 ^ 32 -> Forall (Forall (op_ok limit)) blocks -> Forall (Forall quiet) blocks ->
  exists ps, send_blocks m t blocks = (t, ps) /\
    forall p, In p ps -> exists ops, In ops blocks /\ octets_of p = written m t ops /\ headers_of p = headers (abs t) ops.
Proof.
  intros W L. induction blocks as [|ops blocks IH]; intros Ho Hq; [exists []; split; [reflexivity|intros p []]|].
  inversion Ho as [|? ? O1 O2]; inversion Hq as [|? ? Q1 Q2]; subst. destruct (IH O2 Q2) as (ps & E & Hps).
  pose proof (quiet_kept m ops t [] W (ops_typed _ _ L O1) Q1) as K.
  cbn [send_blocks]. rewrite written_run, K, E. eexists. split; [reflexivity|].
  intros p [<-|Hp]; [exists ops; cbn; auto|]. destruct (Hps p Hp) as (ops' & H & H'). exists ops'. split; [now right|exact H'].
Qed.

Theorem any_order m m' blocks d t arrivals ps t' : wf t -> dtable d = t -> dlimit d < 2 ^ 32 ->
  Forall (Forall (op_ok (dlimit d))) blocks -> Forall (Forall quiet) blocks ->
  send_blocks m t blocks = (t', ps) -> Forall (fun p => In p ps) arrivals ->
  t' = t /\ all_right m' d d arrivals.
Proof.
  intros W <- L Ho Hq E Ha. destruct (quiet_sent m (dlimit d) blocks (dtable d) W L Ho Hq) as (ps' & E' & Hps).
  rewrite E in E'. injection E' as -> ->. split; [reflexivity|]. unfold all_right.
  induction Ha as [|p arrivals Hp Ha IH]; [reflexivity|]. cbn [map receive].
  destruct (Hps p Hp) as (ops & Hin & E1 & E2). rewrite Forall_forall in Ho, Hq.
  destruct (block_read m m' ops d W L (Ho ops Hin)) as (t1 & n & Et & _ & Ed).
  rewrite (quiet_kept m ops (dtable d) [] W (ops_typed _ _ L (Ho ops Hin)) (Hq ops Hin)) in Et. subst t1.
  rewrite E1, Ed, same_dec by reflexivity. rewrite IH, E2. reflexivity.
Qed.

(* ------------------------------------------------------------------ *)
(* Self-contained calls. *)
Lemma self_quiet o : self_contained o = true -> quiet o.
Proof.
  destruct o as [[i|i v fl|n v fl]|n]; cbn [self_contained quiet unindexed]; intros H; try exact Logic.I.
  - apply andb_true_iff in H. now apply negb_true_iff.
  - apply andb_true_iff in H. now apply negb_true_iff.
  - discriminate.
Qed.
Lemma static_same t t2 i : i <= 61 -> lookup (inner t) i = lookup (inner t2) i.
Proof.
  intros H. destruct (N.eq_dec i 0) as [->|N0]; [reflexivity|]. rewrite !lookup_static by lia. reflexivity.
Qed.
Lemma with_table_same {A} t t2 (x : list N * outcome enc_error A) :
  snd (fst (with_table t x)) = snd (fst (with_table t2 x)) /\ snd (with_table t x) = snd (with_table t2 x).
Proof. destruct x as [s o]. split; reflexivity. Qed.
Lemma chain_same t t2 (x : list N * outcome enc_error unit) (k : list N -> list N * outcome enc_error unit) :
  let y t := binds (with_table t x) (fun td _ => with_table (fst td) (k (snd td))) in
  snd (fst (y t)) = snd (fst (y t2)) /\ snd (y t) = snd (y t2).
Proof. destruct x as [s []]; cbn; try (split; reflexivity). destruct (k s). split; reflexivity. Qed.

Lemma self_step m t t2 f dst : input_ok f -> self_contained (Send f) = true ->
  snd (fst (hencode m t f dst)) = snd (fst (hencode m t2 f dst)) /\ snd (hencode m t f dst) = snd (hencode m t2 f dst) /\
  snd (fst (op_meaning (abs t) (Send f))) = snd (fst (op_meaning (abs t2) (Send f))).
Proof.
  intros Hf Hs. destruct f as [i|i v fl|n v fl]; cbn [hencode op_meaning field_of flag_used self_contained] in *.
  - apply N.leb_le in Hs. unfold encode_indexed. rewrite !get_lookup. cbn [abs entries]. rewrite (static_same t t2 i Hs).
    destruct (lookup (inner t2) i) as [[a b]|]; [|repeat split].
    destruct (with_table_same t t2 (encode_integer i 128 7 dst)) as [-> ->]. repeat split.
  - apply andb_true_iff in Hs. destruct Hs as [Hi H2]. apply N.leb_le in Hi. apply negb_true_iff in H2.
    destruct Hf as (_ & _ & Hf). unfold encode_indexed_name. rewrite !get_lookup. cbn [abs entries]. rewrite (static_same t t2 i Hi).
    destruct (has_flag_bits fl Hf) as (_ & _ & -> & _ & _). rewrite H2.
    destruct (lookup (inner t2) i) as [[a b]|]; [|repeat split]. cbv zeta. cbn [option_map fst].
    destruct (has_flag fl 8);
      match goal with |- context [binds (with_table t ?x) _] =>
        pose proof (chain_same t t2 x (fun s => encode_string m v (has_flag fl 2) s)) as X; cbv zeta in X end;
      exact (conj (proj1 X) (conj (proj2 X) eq_refl)).
  - apply andb_true_iff in Hs. destruct Hs as [H2 H4]. apply negb_true_iff in H2, H4.
    destruct Hf as (_ & _ & Hf). destruct (has_flag_bits fl Hf) as (_ & _ & F4 & _ & ->). rewrite H4. cbn [andb].
    unfold encode_literal. rewrite F4, H2.
    destruct (has_flag fl 8); cbn [binds fst snd];
      match goal with |- context [binds (with_table t ?x) _] =>
        pose proof (chain_same t t2 x (fun s => encode_string m v (has_flag fl 2) s)) as X; cbv zeta in X end;
      exact (conj (proj1 X) (conj (proj2 X) eq_refl)).
Qed.

Lemma self_same m ops : forall t t2 dst, wf t -> wf t2 -> Forall op_typed ops -> forallb self_contained ops = true ->
  snd (fst (run_ops m t dst ops)) = snd (fst (run_ops m t2 dst ops)) /\ snd (run_ops m t dst ops) = snd (run_ops m t2 dst ops) /\
  headers (abs t) ops = headers (abs t2) ops.
Proof.
  induction ops as [|o ops IH]; intros t t2 dst W W2 T S; [repeat split|].
  inversion T as [|? ? T1 T2]; subst. cbn [forallb] in S. apply andb_true_iff in S. destruct S as [S1 S2].
  pose proof (self_quiet o S1) as Q. destruct o as [f|n]; [|contradiction].
  destruct (self_step m t t2 f dst T1 S1) as (E1 & E2 & E3).
  pose proof (unindexed_kept m t f dst W T1 Q) as K. pose proof (unindexed_kept m t2 f dst W2 T1 Q) as K2.
  assert (M : forall t, wf t -> fst (fst (op_meaning (abs t) (Send f))) = abs t).
  { intros t0 W0. pose proof (HpackReach.op_step_table m t0 dst (Send f) W0 T1) as X. cbn [op_step] in X.
    rewrite (unindexed_kept m t0 f dst W0 T1 Q) in X. apply (f_equal abs) in X. rewrite abs_conc in X. now symmetry. }
  pose proof (M t W) as M1. pose proof (M t2 W2) as M2.
  rewrite !run_ops_cons. unfold headers. rewrite !meaning_cons. cbn [op_step].
  destruct (hencode m t f dst) as [[ta da] ra]. destruct (hencode m t2 f dst) as [[tb db] rb]. cbn [fst snd] in E1, E2, K, K2. subst ta tb db rb.
  destruct (op_meaning (abs t) (Send f)) as [[a1 a2] a3]. destruct (op_meaning (abs t2) (Send f)) as [[b1 b2] b3].
  cbn [fst snd] in E3, M1, M2. subst a1 b1 b2. destruct (IH t t2 da W W2 T2 S2) as (F1 & F2 & F3). unfold headers in F3.
  destruct (run_ops m t da ops) as [[? ?] ?], (run_ops m t2 da ops) as [[? ?] ?].
  destruct (meaning (abs t) ops) as [[? ?] ?], (meaning (abs t2) ops) as [[? ?] ?]. cbn [fst snd] in *. subst. repeat split.
Qed.
Lemma self_quiet_all ops : forallb self_contained ops = true -> Forall quiet ops.
Proof. intros H. apply Forall_forall. intros o Ho. rewrite forallb_forall in H. apply self_quiet. now apply H. Qed.

Theorem self_contained_block m m' ops limit t : wf t -> limit < 2 ^ 32 -> Forall (op_ok limit) ops -> forallb self_contained ops = true ->
  fst (fst (run_ops m t [] ops)) = t /\
  forall t2, wf t2 -> written m t2 ops = written m t ops /\ headers (abs t2) ops = headers (abs t) ops /\
  forall d, wf (dtable d) -> dlimit d = limit ->
  exists n, hdecode m' d (written m t ops) [] = ((d, [], headers (abs t) ops), Ok n).
Proof.
  intros W L Ho S. pose proof (ops_typed _ _ L Ho) as T. split; [apply quiet_kept; auto using self_quiet_all|].
  intros t2 W2. destruct (self_same m ops t2 t [] W2 W T S) as (E1 & _ & E2). split; [exact E1|]. split; [exact E2|].
  intros d Wd Ed. subst limit. destruct (self_same m ops (dtable d) t [] Wd W T S) as (F1 & _ & F2).
  destruct (block_read m m' ops d Wd L Ho) as (t1 & n & Et & _ & E).
  rewrite (quiet_kept m ops (dtable d) [] Wd T (self_quiet_all ops S)) in Et. subst t1. rewrite same_dec in E by reflexivity.
  exists n. unfold written in E. rewrite F1, F2 in E. exact E.
Qed.

(* ------------------------------------------------------------------ *)
(* Self-contained blocks among others. *)
Definition held (p : packet) : bool := negb (free p).

(* Every free packet is read alike by every decoder. *)
Lemma free_packets m m' limit blocks : forall t t' ps, wf t -> limit < 2 ^ 32 -> Forall (Forall (op_ok limit)) blocks ->
  send_blocks m t blocks = (t', ps) -> forall p, In p ps -> free p = true ->
  forall d, wf (dtable d) -> dlimit d = limit -> exists n, hdecode m' d (octets_of p) [] = ((d, [], headers_of p), Ok n).
Proof.
  induction blocks as [|ops blocks IH]; intros t t' ps W L Ho E p Hp Hf d Wd Hd; cbn [send_blocks] in E.
  - injection E as _ <-. contradiction.
  - inversion Ho as [|? ? O1 O2]; subst. pose proof (ops_typed _ _ L O1) as T.
    pose proof (run_ops_wf m ops t [] W T) as W1. rewrite written_run in E, W1. set (t1 := fst (fst (run_ops m t [] ops))) in *.
    destruct (send_blocks m t1 blocks) as [t2 ps'] eqn:E2. injection E as <- <-. destruct Hp as [<-|Hp].
    + cbn [octets_of headers_of free] in *. destruct (self_contained_block m m' ops (dlimit d) t W L O1 Hf) as [_ H].
      destruct (H t W) as (_ & _ & H'). now apply H'.
    + apply (IH t1 t2 ps'); auto. apply W1.
Qed.

(* The others are a session of their own. *)
Lemma held_packets m limit blocks : forall t, wf t -> limit < 2 ^ 32 -> Forall (Forall (op_ok limit)) blocks ->
  let others := filter (fun ops => negb (forallb self_contained ops)) blocks in
  fst (send_blocks m t others) = fst (send_blocks m t blocks) /\
  snd (send_blocks m t others) = filter held (snd (send_blocks m t blocks)).
Proof.
  induction blocks as [|ops blocks IH]; intros t W L Ho; [split; reflexivity|]. cbv zeta in *. cbn [filter send_blocks].
  inversion Ho as [|? ? O1 O2]; subst. pose proof (ops_typed _ _ L O1) as T.
  pose proof (run_ops_wf m ops t [] W T) as W1. destruct (forallb self_contained ops) eqn:S; cbn [negb].
  - destruct (IH t W L O2) as [E1 E2]. pose proof (quiet_kept m ops t [] W T (self_quiet_all ops S)) as K.
    rewrite written_run, K. destruct (send_blocks m t blocks) as [t2 ps]. cbn [fst snd] in *. split; [exact E1|].
    cbn [filter held free negb]. exact E2.
  - cbn [send_blocks]. rewrite written_run in *. set (t1 := fst (fst (run_ops m t [] ops))) in *.
    destruct (IH t1 (proj1 W1) L O2) as [E1 E2].
    destruct (send_blocks m t1 blocks) as [t2 ps]. destruct (send_blocks m t1 (filter (fun ops => negb (forallb self_contained ops)) blocks)) as [t3 ps3].
    cbn [fst snd] in *. split; [exact E1|]. cbn [filter held free negb]. rewrite S. now f_equal.
Qed.

Lemma in_between_run m m' limit : limit < 2 ^ 32 -> forall arrivals others d,
  wf (dtable d) -> dlimit d = limit -> Forall (Forall (op_ok limit)) others ->
  filter held arrivals = snd (send_blocks m (dtable d) others) ->
  Forall (fun p => free p = true -> forall d, wf (dtable d) -> dlimit d = limit ->
    exists n, hdecode m' d (octets_of p) [] = ((d, [], headers_of p), Ok n)) arrivals ->
  all_right m' d (set_table d (fst (send_blocks m (dtable d) others))) arrivals.
Proof.
  intros L. induction arrivals as [|p arrivals IH]; intros others d Wd Hd Ho E F; unfold all_right in *; cbn [map receive].
  - cbn [filter] in E. destruct others as [|ops others]; [cbn; now rewrite same_dec|]. exfalso. cbn [send_blocks] in E.
    destruct (run_ops m (dtable d) [] ops) as [[? ?] ?]. destruct (send_blocks m t others). discriminate E.
  - inversion F as [|? ? F1 F2]; subst. cbn [filter] in E. unfold held at 1 in E. destruct (free p) eqn:Ef; cbn [negb] in E.
    + destruct (F1 eq_refl d Wd eq_refl) as [n En]. rewrite En, (IH others d Wd eq_refl Ho E F2). reflexivity.
    + destruct others as [|ops others]; [discriminate E|]. inversion Ho as [|? ? O1 O2]; subst.
      destruct (block_read m m' ops d Wd L O1) as (t1 & n & Et & W1 & Ed). cbn [send_blocks] in *.
      rewrite written_run, Et in E. rewrite written_run, Et.
      specialize (IH others (set_table d t1) W1 eq_refl O2). cbn [dtable set_table dlimit] in IH.
      destruct (send_blocks m t1 others) as [t2 ps2]. cbn [fst snd] in *. injection E as E1 E2. subst p.
      cbn [octets_of headers_of]. rewrite Ed. rewrite (IH E2 F2). reflexivity.
Qed.

Theorem in_between m m' blocks d t arrivals ps t' : wf t -> dtable d = t -> dlimit d < 2 ^ 32 ->
  Forall (Forall (op_ok (dlimit d))) blocks -> send_blocks m t blocks = (t', ps) ->
  Forall (fun p => In p ps) arrivals -> filter held arrivals = filter held ps ->
  all_right m' d (set_table d t') arrivals.
Proof.
  intros W <- L Ho E Ha Hf. destruct (held_packets m (dlimit d) blocks (dtable d) W L Ho) as [E1 E2].
  set (others := filter (fun ops => negb (forallb self_contained ops)) blocks) in *. rewrite E in E1, E2. cbn [fst snd] in E1, E2.
  rewrite <- E1. apply (in_between_run m m' (dlimit d)); auto.
  - apply Forall_forall. intros ops Hin. apply filter_In in Hin. rewrite Forall_forall in Ho. now apply Ho.
  - now rewrite E2.
  - eapply Forall_impl; [|exact Ha]. intros p Hp Fp. exact (free_packets m m' (dlimit d) blocks (dtable d) t' ps W L Ho E p Hp Fp).
Qed.

(* A block that stores is missed: the next reference to its entry is misread. *)
Theorem store_lost m m' d t f e first rest : wf t -> dtable d = t -> input_ok f ->
  field_of (inner t) f = Some e -> flag_used (inner t) f = 4 -> line_size e <= dmax t ->
  inner t = first :: rest -> first <> e ->
  let t1 := fst (fst (hencode m t f [])) in
  headers (abs t1) [Send (Indexed 62)] = [(fst e, snd e, 0)] /\
  hdecode m' d (written m t1 [Send (Indexed 62)]) [] = ((d, [], [(fst first, snd first, 0)]), Ok 1) /\
  (fst first, snd first) <> (fst e, snd e).
Proof.
  intros W Hd Hf Ef Hfl Hsz Ei Hne t1.
  assert (E1 : t1 = conc (insert (abs t) e)).
  { unfold t1. pose proof (HpackReach.op_step_table m t [] (Send f) W Hf) as X. cbn [op_step op_meaning abs entries] in X.
    rewrite Ef in X. destruct e as [n v]. rewrite Hfl in X. exact X. }
  assert (W1 : wf t1) by (exact (hencode_wf m t f [] W Hf)).
  assert (El : lookup (inner t1) 62 = Some e).
  { rewrite E1. change 62 with (62 + 0). rewrite lookup_dynamic. cbn [conc inner insert entries abs fit max_size].
    rewrite (proj2 (N.leb_le _ _)) by exact Hsz. reflexivity. }
  assert (H62 : 62 < 2 ^ 28) by reflexivity.
  destruct (reference_written m t1 62 e W1 H62 El) as (bs & Ew & Hb & Hw & Eh). split; [exact Eh|]. split; [|now rewrite <- !surjective_pairing]. rewrite Ew.
  assert (Ebs : bs = [190]).
  { inversion Hw as [v0 Hv Hlim|tl r0 Ht Hlim]; subst; [reflexivity|exfalso; change (2 ^ 7 - 1) with 127 in *; lia]. }
  clear Ew. subst bs t. destruct first as [n v]. cbn [fst snd].
  pose proof (hdecode_ok m' d [([190], RIndexed 62)] [] (abs (dtable d)) [(n, v, 0)] Done [] W) as H.
  unfold wire_octets in H. cbn [map fst concat reprs snd interp_all interp abs entries] in H.
  assert (El2 : lookup (inner (dtable d)) 62 = Some (n, v)).
  { rewrite Ei. change 62 with (62 + 0). rewrite lookup_dynamic. reflexivity. }
  rewrite El2 in H. cbn [List.app] in H.
  specialize (H Hb (Forall_cons ([190], RIndexed 62) (wire_indexed _ _ _ _ Hw) (Forall_nil _)) eq_refl (ends_done _ _)).
  rewrite H, conc_abs, same_dec by (reflexivity || exact W). reflexivity.
Qed.
