(* C101: headers that fit the table together are sent in full at most once each. *)
From Verif Require Import Base HuffTables HuffModel HuffSpec HuffCode HuffDecProofs HuffDerived HuffMore Leb HpackStatic HpackModel
  HpackSpec HpackApi HpackInt HpackStr HpackTab HpackDec HpackEnc HpackDerived HpackMore HpackMore2 HpackUnique HpackLength
  HpackRetain HpackTidy.
Open Scope list_scope.
Open Scope N_scope.

(* ------------------------------------------------------------------ *)
(* Specification: calls that store headers only with the best-format flag 0x10, and only
   headers of D (those of the static table need not be in D).  Any calls that store nothing
   may come in between, but no size change. *)
Definition stores_in (D : list field_line) (o : op) : Prop :=
  match o with
  | Send (Literal n v fl) => N.testbit fl 2 = true -> N.testbit fl 4 = true /\ In (n, v) (rfc_static ++ D)
  | Send (IndexedName _ _ fl) => N.testbit fl 2 = false
  | Send (Indexed _) => True
  | Resize _ => False
  end.

(* Sending headers, each with both flags 0x4 and 0x10 (and any Huffman flags). *)
Definition best_indexed (h : out_header) : Prop :=
  input_ok (Literal (fst (fst h)) (snd (fst h)) (snd h)) /\ N.testbit (snd h) 2 = true /\ N.testbit (snd h) 4 = true.
Definition send_all (hs : list out_header) : list op :=
  map (fun h => Send (Literal (fst (fst h)) (snd (fst h)) (snd h))) hs.

(* ------------------------------------------------------------------ *)
Lemma size_incl : forall s D, NoDup s -> incl s D -> size s <= size D.
Proof.
  induction s as [|e s IH]; intros D Hn Hi; [cbn [size]; lia|].
  inversion Hn as [|? ? He Hs]; subst.
  destruct (in_split e D) as (a & b & ->); [apply Hi; now left|].
  assert (incl s (a ++ b)).
  { intros x Hx. assert (In x (a ++ e :: b)) by (apply Hi; now right). apply in_app_or in H as [H|[->|H]];
      [apply in_or_app; now left|contradiction|apply in_or_app; now right]. }
  specialize (IH (a ++ b) Hs H). rewrite size_app in *. cbn [size]. lia.
Qed.

Lemma fit_app_keep max s l : size s <= max -> exists l', prefix l' l /\ fit max (s ++ l) = s ++ l'.
Proof.
  revert max. induction s as [|e s IH]; intros max H; cbn [size app fit] in *.
  - exists (fit max l). split; [apply fit_prefix|reflexivity].
  - replace (line_size e <=? max) with true by (symmetry; apply N.leb_le; lia).
    destruct (IH (max - line_size e)) as (l' & Hp & E); [lia|]. exists l'. now rewrite E.
Qed.

(* A call that stores something stores a header of D that is not in the table. *)
Lemma stores_fresh D d o d1 h res : stores_in D o -> op_meaning d o = (d1, h, res) ->
  (stored h = [] /\ d1 = d) \/
  exists e, stored h = [e] /\ d1 = insert d e /\ In e D /\ ~ In e (rfc_static ++ entries d).
Proof.
  intros Hs Hm. destruct o as [f|n]; [|contradiction]. cbn [op_meaning] in Hm.
  destruct (field_of (entries d) f) as [[n v]|] eqn:Ef; [|injection Hm as <- <- _; now left].
  destruct (N.eqb_spec (flag_used (entries d) f) 4) as [E|E].
  2: { injection Hm as <- <- _. left. split; [|reflexivity]. change (n, v, ?x) with ((n, v), x). rewrite stored_one.
       apply N.eqb_neq in E. now rewrite E. }
  rewrite E in Hm. injection Hm as <- <- _. right. exists (n, v). split; [reflexivity|]. split; [reflexivity|].
  destruct f as [i|i w fl|n0 w fl]; cbn [flag_used stores_in field_of] in *.
  - discriminate E.
  - unfold kind_of in E. rewrite Hs in E. destruct (N.testbit fl 3); discriminate E.
  - injection Ef as -> ->. unfold has_line in E.
    destruct (in_dec line_eq_dec (n, v) (rfc_static ++ entries d)) as [I|I].
    + unfold kind_of in E. destruct (N.testbit fl 2) eqn:E2.
      * destruct (Hs eq_refl) as [H4 _]. rewrite H4 in E. discriminate E.
      * destruct (N.testbit fl 4 && true); [discriminate E|]. destruct (N.testbit fl 3); discriminate E.
    + split; [|exact I]. rewrite andb_false_r in E. unfold kind_of in E.
      destruct (N.testbit fl 2) eqn:E2; [|destruct (N.testbit fl 3); discriminate E].
      destruct (Hs eq_refl) as [_ H]. apply in_app_or in H as [H|H]; [|exact H].
      exfalso. apply I. apply in_or_app. now left.
Qed.

Lemma once_meaning D ops : forall d s l, NoDup D -> size D <= max_size d -> Forall (stores_in D) ops ->
  entries d = s ++ l -> NoDup s -> incl s D ->
  NoDup (stored (snd (fst (meaning d ops))) ++ s) /\ incl (stored (snd (fst (meaning d ops)))) D.
Proof.
  induction ops as [|o ops IH]; intros d s l HD Hsz Hs He Hn Hi.
  - cbn. split; [exact Hn|intros x []].
  - inversion Hs as [|? ? S1 S2]; subst. rewrite meaning_cons.
    destruct (op_meaning d o) as [[d1 h] res] eqn:Em.
    destruct (stores_fresh D d o d1 h res S1 Em) as [[Es ->]|(e & Es & -> & HeD & Hf)].
    + specialize (IH d s l HD Hsz S2 He Hn Hi). destruct (meaning d ops) as [[d2 hs] rs]. cbn [fst snd] in *.
      rewrite stored_app, Es, app_nil_r. exact IH.
    + assert (N1 : NoDup (e :: s)).
      { constructor; [|exact Hn]. intros I. apply Hf. rewrite He. apply in_or_app. right. apply in_or_app. now left. }
      assert (I1 : incl (e :: s) D) by (intros x [<-|X]; auto).
      pose proof (size_incl (e :: s) D N1 I1) as Sz.
      destruct (fit_app_keep (max_size d) (e :: s) l) as (l' & _ & El); [lia|].
      assert (E1 : entries (insert d e) = (e :: s) ++ l').
      { cbn [insert entries]. rewrite He. exact El. }
      specialize (IH (insert d e) (e :: s) l' HD Hsz S2 E1 N1 I1).
      destruct (meaning (insert d e) ops) as [[d2 hs] rs]. cbn [fst snd] in *.
      rewrite stored_app, Es, <- app_assoc. destruct IH as [A B]. split; [exact A|].
      intros x X. apply in_app_or in X as [X|[<-|[]]]; auto.
Qed.

Lemma stores_send D ops : Forall (stores_in D) ops -> Forall is_send ops.
Proof. apply Forall_impl. intros [f|n]; cbn; auto. Qed.

(* The encoder's own view. *)
Theorem once_encoder m D ops t dst t' dst' rs : wf t -> Forall op_typed ops -> Forall (stores_in D) ops ->
  NoDup D -> size D <= dmax t -> run_ops m t dst ops = (t', dst', rs) -> no_overflow rs ->
  let hs := snd (fst (meaning (abs t) ops)) in
  wf t' /\ dmax t' = dmax t /\ NoDup (stored hs) /\ incl (stored hs) D /\
  exists l', prefix l' (inner t) /\ inner t' = stored hs ++ l'.
Proof.
  intros Hw Hty Hs HD Hsz Hr Hno hs.
  destruct (once_meaning D ops (abs t) [] (inner t) HD Hsz Hs eq_refl (NoDup_nil _)) as [A B]; [intros x []|].
  fold hs in A, B. rewrite app_nil_r in A.
  destruct (session_retain m ops t dst t' dst' rs Hw Hty (stores_send D ops Hs) Hr Hno) as (W & M & L).
  fold hs in L. unfold timeline in L. pose proof (size_incl _ _ A B) as Sz.
  destruct (fit_app_keep (dmax t) (stored hs) (inner t)) as (l' & Hp & El); [lia|].
  refine (conj W (conj M (conj A (conj B _)))). exists l'. split; [exact Hp|]. congruence.
Qed.

(* A header that was sent in full: from then on an index. *)
Theorem once_index m D ops t dst t' dst' rs n v fl dst3 : wf t -> Forall op_typed ops -> Forall (stores_in D) ops ->
  NoDup D -> size D <= dmax t -> run_ops m t dst ops = (t', dst', rs) -> no_overflow rs ->
  In (n, v) (stored (snd (fst (meaning (abs t) ops)))) -> input_ok (Literal n v fl) -> N.testbit fl 4 = true ->
  exists i bs, hencode m t' (Literal n v fl) dst3 = ((t', dst3 ++ bs), Ok tt) /\
    table_get t' i = Some (n, v) /\ i <= 61 + N.of_nat (length D) /\
    repr_wire 6 rfc_padding bs (RIndexed i) /\ N.of_nat (length bs) <= int_octets 7 (61 + N.of_nat (length D)).
Proof.
  intros Hw Hty Hs HD Hsz Hr Hno Hin Hi H4.
  destruct (once_encoder m D ops t dst t' dst' rs Hw Hty Hs HD Hsz Hr Hno) as (W & M & A & B & l' & _ & El).
  set (st := stored (snd (fst (meaning (abs t) ops)))) in *.
  destruct (In_nth_error _ _ Hin) as [k Hk].
  assert (Hk' : (k < length D)%nat).
  { apply Nat.lt_le_trans with (length st); [apply nth_error_Some; congruence|]. now apply NoDup_incl_length. }
  assert (G : table_get t' (62 + N.of_nat k) = Some (n, v)).
  { rewrite get_lookup, lookup_dynamic, Nat2N.id, El. rewrite nth_error_app1; [exact Hk|]. apply nth_error_Some. congruence. }
  destruct (sent_again m t' (N.of_nat k) n v fl dst3 W Hi H4 G) as (i & bs & E & Gi & Le & Wi & Lo).
  exists i, bs. refine (conj E (conj Gi (conj _ (conj Wi _)))); [lia|].
  eapply N.le_trans; [exact Lo|]. apply int_octets_mono. lia.
Qed.

(* ------------------------------------------------------------------ *)
(* Octets of a whole session, from a new encoder. *)
Lemma send_all_typed hs : Forall best_indexed hs -> Forall op_typed (send_all hs).
Proof. intros H. apply Forall_map. eapply Forall_impl; [|exact H]. intros h (A & _). exact A. Qed.
Lemma send_all_stores D hs : Forall best_indexed hs -> incl (map fst hs) (rfc_static ++ D) -> Forall (stores_in D) (send_all hs).
Proof.
  intros H Hi. apply Forall_map. apply Forall_forall. intros [[n v] fl] Hx. cbn. intros _.
  pose proof (proj1 (Forall_forall _ _) H _ Hx) as (_ & _ & H4). split; [exact H4|]. apply Hi.
  change (n, v) with (fst ((n, v, fl))). now apply in_map.
Qed.

Lemma send_one m D s t n v fl dst : wf t -> inner t = s -> NoDup D -> NoDup s -> incl s D ->
  best_indexed (n, v, fl) -> snd (hencode m t (Literal n v fl) dst) <> Err EIntegerOverflow ->
  exists d1 h bs, op_meaning (abs t) (Send (Literal n v fl)) = (d1, h, Ok tt) /\ wf (conc d1) /\
    hencode m t (Literal n v fl) dst = ((conc d1, dst ++ bs), Ok tt) /\ map fst h = [(n, v)] /\
    N.of_nat (length bs) <= 4 * size (stored h) + int_octets 7 (61 + N.of_nat (length D)) /\
    (N.testbit fl 0 = false -> N.testbit fl 1 = false ->
     N.of_nat (length bs) <= size (stored h) + int_octets 7 (61 + N.of_nat (length D))).
Proof.
  intros Hw Hin HD Hns His (Hi & H2 & H4) Hno. cbn [fst snd] in *.
  destruct (op_size m t dst (Send (Literal n v fl)) Hw Hi Hno) as (d1 & h & res & bs & Em & W1 & E & B1 & B2).
  cbn [op_step] in E. pose proof Em as Em0. cbn [op_meaning field_of] in Em. change (entries (abs t)) with (inner t) in Em.
  injection Em as Ed Eh Er. subst res. exists d1, h, bs.
  refine (conj Em0 (conj W1 (conj E _))). split; [now rewrite <- Eh|].
  cbn [flag_used] in Eh, Ed. rewrite H4 in *. unfold kind_of in Eh. rewrite H2 in Eh. cbn [andb] in Eh.
  unfold has_line in Eh. destruct (in_dec line_eq_dec (n, v) (rfc_static ++ inner t)) as [J|J].
  - (* an index *)
    apply in_lookup in J as [j Hj].
    destruct (@table_find_ok enc_error m t n v Hw) as (r & _ & Hr).
    pose proof (ch_best (inner t) n v fl r H4 Hr) as Hc.
    assert (exists i, r = Some (i, true)) as [i ->].
    { destruct r as [[i []]|]; [eauto| |]; cbn [find_spec] in Hr.
      - destruct Hr as (_ & _ & Hx). now destruct (Hx _ Hj).
      - now destruct (Hr _ _ Hj). }
    cbn [find_spec] in Hr. destruct Hr as [Hl _].
    pose proof (hencode_octets m t _ dst (RIndexed i) bs (conc d1) Hw Hi Hc I E) as Lo. cbn [repr_octets] in Lo.
    apply lookup_bound in Hl. rewrite Hin in Hl.
    assert (int_octets 7 i <= int_octets 7 (61 + N.of_nat (length D))).
    { apply int_octets_mono. pose proof (NoDup_incl_length Hns His). lia. }
    split; [lia|intros; lia].
  - cbn [kind_flag] in Eh. assert (Es : size (stored h) = line_size (n, v)).
    { rewrite <- Eh. change (stored [(n, v, 4)]) with [(n, v)]. cbn [size]. lia. }
    rewrite <- Eh in B1, B2. cbn [list_size resizes plain_op] in B1, B2. rewrite Es.
    split; [lia|]. intros P0 P1. specialize (B2 (conj P0 P1)). lia.
Qed.

Lemma op_send_entries D d s n v fl d1 h res : entries d = s -> NoDup D -> NoDup s -> incl s D -> size D <= max_size d ->
  stores_in D (Send (Literal n v fl)) -> op_meaning d (Send (Literal n v fl)) = (d1, h, res) ->
  entries d1 = stored h ++ s /\ NoDup (stored h ++ s) /\ incl (stored h ++ s) D /\ max_size d1 = max_size d.
Proof.
  intros He HD Hn Hi Hsz Hs Hm.
  destruct (stores_fresh D d _ d1 h res Hs Hm) as [[-> ->]|(e & -> & -> & HeD & Hf)]; [cbn [app]; auto|].
  assert (N1 : NoDup (e :: s)).
  { constructor; [|exact Hn]. intros I. apply Hf. rewrite He. apply in_or_app. now right. }
  assert (I1 : incl (e :: s) D) by (intros x [<-|X]; auto).
  pose proof (size_incl (e :: s) D N1 I1) as Sz. cbn [app]. refine (conj _ (conj N1 (conj I1 eq_refl))).
  cbn [insert entries]. rewrite He. apply fit_all. lia.
Qed.

Theorem once_octets_from m D hs : forall t s dst t' dst' rs, wf t -> inner t = s -> NoDup D -> size D <= dmax t ->
  NoDup s -> incl s D -> Forall best_indexed hs -> incl (map fst hs) (rfc_static ++ D) ->
  run_ops m t dst (send_all hs) = (t', dst', rs) -> no_overflow rs ->
  exists out hs', dst' = dst ++ out /\ snd (fst (meaning (abs t) (send_all hs))) = hs' /\ map fst hs' = map fst hs /\
    rs = map (fun _ => Ok tt) hs /\ inner t' = stored hs' ++ s /\
    N.of_nat (length out) <= 4 * size (stored hs') + N.of_nat (length hs) * int_octets 7 (61 + N.of_nat (length D)) /\
    (Forall plain_op (send_all hs) ->
     N.of_nat (length out) <= size (stored hs') + N.of_nat (length hs) * int_octets 7 (61 + N.of_nat (length D))).
Proof.
  induction hs as [|[[n v] fl] hs IH]; intros t s dst t' dst' rs Hw Hin HD Hsz Hn Hi Hb Hinc Hr Hno.
  - cbn in Hr. injection Hr as <- <- <-. exists [], []. rewrite app_nil_r. cbn. repeat split; auto; lia.
  - inversion Hb as [|? ? B1 B2]; subst. change (send_all ((n, v, fl) :: hs)) with (Send (Literal n v fl) :: send_all hs) in *.
    rewrite run_ops_cons in Hr. cbn [op_step] in Hr.
    assert (N1 : snd (hencode m t (Literal n v fl) dst) <> Err EIntegerOverflow).
    { intros E. destruct (hencode m t (Literal n v fl) dst) as [[t1 dst1] r1]. cbn in E. subst r1.
      destruct (run_ops m t1 dst1 (send_all hs)) as [[? ?] ?]. injection Hr as _ _ <-. apply Hno. now left. }
    destruct (send_one m D (inner t) t n v fl dst Hw eq_refl HD Hn Hi B1 N1) as (d1 & h & bs & Em & W1 & E & Eh & L1 & P1).
    rewrite E in Hr. destruct (run_ops m (conc d1) (dst ++ bs) (send_all hs)) as [[t2 dst2] rs2] eqn:E2.
    injection Hr as <- <- <-.
    assert (N2 : no_overflow rs2) by (intros X; apply Hno; now right).
    assert (Hst : stores_in D (Send (Literal n v fl))).
    { cbn. intros _. destruct B1 as (_ & _ & H4). split; [exact H4|]. apply Hinc. now left. }
    destruct (op_send_entries D (abs t) (inner t) n v fl d1 h (Ok tt) eq_refl HD Hn Hi Hsz Hst Em) as (X1 & X2 & X3 & X4).
    assert (Hinc2 : incl (map fst hs) (rfc_static ++ D)) by (intros x X; apply Hinc; now right).
    assert (Hsz1 : size D <= dmax (conc d1)) by (cbn [conc dmax]; rewrite X4; exact Hsz).
    destruct (IH (conc d1) (stored h ++ inner t) (dst ++ bs) t2 dst2 rs2 W1 X1 HD Hsz1 X2 X3 B2 Hinc2 E2 N2)
      as (out & hs' & -> & Em2 & Ef & -> & El & L2 & P2).
    rewrite abs_conc in Em2. rewrite meaning_cons, Em.
    destruct (meaning d1 (send_all hs)) as [[d2 hs2] r2] eqn:Emm. cbn [fst snd] in *. subst hs2.
    exists (bs ++ out), (h ++ hs'). rewrite app_assoc, app_length, stored_app, size_app, map_app, Eh, Ef, El, <- !app_assoc.
    cbn [length map app fst]. repeat split; auto; try lia.
    intros P. inversion P as [|? ? Q1 Q2]; subst. destruct Q1 as [Q0 Q1]. specialize (P1 Q0 Q1). specialize (P2 Q2). lia.
Qed.
