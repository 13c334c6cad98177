(* A decoder out of step that recovers by itself, or never does (C120).

   The environment is not code of the repository: one encoder, whose octets for a list of
   calls are handed to one decoder with any table. *)
From Verif Require Import Base HuffTables HuffModel HuffSpec HuffCode Leb HpackStatic HpackModel
  HpackSpec HpackApi HpackInt HpackStr HpackTab HpackDec HpackEnc HpackDerived HpackMore HpackRetain HpackSizes
  HpackConn HpackAlike HpackSecret HpackTrust HpackLoss.
From Verif Require HpackReach HpackEncAlike.
Open Scope list_scope.
Open Scope N_scope.

(* ------------------------------------------------------------------ *)
(* Specification vocabulary. *)

(* A call that does not look at the stored entries, though it may store or evict: static
   indices, literals without the best-format flag 0x10, size updates. *)
Definition table_free (o : op) : bool :=
  match o with
  | Send (Indexed i) => i <=? 61
  | Send (IndexedName i _ _) => i <=? 61
  | Send (Literal _ _ fl) => negb (N.testbit fl 4)
  | Resize _ => true
  end.
(* The encoder's table after the calls. *)
Definition left_with (m : mode) (t : table) (ops : list op) : table := fst (fst (run_ops m t [] ops)).
(* Two lists that differ from their first entry on. *)
Definition apart (x y : list field_line) : Prop := match x, y with e :: _, e' :: _ => e <> e' | _, _ => True end.
(* The first entry, if any, does not fit behind entries of size s. *)
Definition crowded_out (max s : N) (x : list field_line) : Prop := match x with e :: _ => max < s + line_size e | [] => True end.

(* ------------------------------------------------------------------ *)
(* Table-free calls write the same octets and mean the same headers whatever the table. *)
Definition same {A} (x y : enc_state * outcome enc_error A) : Prop := snd (fst x) = snd (fst y) /\ snd x = snd y.
Lemma same_binds {A B} (x y : enc_state * outcome enc_error A) (k k' : enc_state -> A -> enc_state * outcome enc_error B) :
  same x y -> (forall t t' s a, same (k (t, s) a) (k' (t', s) a)) -> same (binds x k) (binds y k').
Proof.
  destruct x as [[t s] v], y as [[t' s'] v']. intros [E1 E2] H. cbn [fst snd] in E1, E2. subst s' v'.
  destruct v; cbn [binds]; [apply H|split; reflexivity..].
Qed.
Lemma same_with {A} t t' (x : list N * outcome enc_error A) : same (with_table t x) (with_table t' x).
Proof. destruct x. split; reflexivity. Qed.
Lemma same_strings m n h v h2 (x y : enc_state * outcome enc_error unit) : same x y ->
  same (binds x (fun td _ => binds (with_table (fst td) (encode_string m n h (snd td)))
                   (fun td' _ => with_table (fst td') (encode_string m v h2 (snd td')))))
       (binds y (fun td _ => binds (with_table (fst td) (encode_string m n h (snd td)))
                   (fun td' _ => with_table (fst td') (encode_string m v h2 (snd td'))))).
Proof.
  intros H. apply same_binds; [exact H|]. intros t t' s _. cbn [fst snd]. apply same_binds; [apply same_with|].
  intros u u' s' _. cbn [fst snd]. apply same_with.
Qed.
Lemma same_string m v h (x y : enc_state * outcome enc_error unit) : same x y ->
  same (binds x (fun td _ => with_table (fst td) (encode_string m v h (snd td))))
       (binds y (fun td _ => with_table (fst td) (encode_string m v h (snd td)))).
Proof. intros H. apply same_binds; [exact H|]. intros t t' s _. cbn [fst snd]. apply same_with. Qed.

Lemma free_step m t t2 o dst : wf t -> wf t2 -> op_typed o -> table_free o = true ->
  same (op_step m t dst o) (op_step m t2 dst o) /\
  snd (fst (op_meaning (abs t) o)) = snd (fst (op_meaning (abs t2) o)).
Proof.
  intros W W2 T F. destruct o as [[i|i v fl|n v fl]|n]; cbn [op_step op_typed hencode op_meaning field_of flag_used table_free] in *.
  - apply N.leb_le in F. unfold encode_indexed. rewrite !get_lookup. cbn [abs entries]. rewrite (static_same t t2 i F).
    destruct (lookup (inner t2) i) as [[a b]|]; [|repeat split]. split; [apply same_with|reflexivity].
  - apply N.leb_le in F. unfold encode_indexed_name. rewrite !get_lookup. cbn [abs entries]. rewrite (static_same t t2 i F).
    destruct (lookup (inner t2) i) as [[a b]|]; [|repeat split]. cbv zeta. cbn [option_map fst]. split; [|reflexivity].
    apply same_string. destruct (has_flag fl 4); [|destruct (has_flag fl 8); apply same_with].
    destruct (@table_insert_ok enc_error m t a v W) as [-> _]. destruct (@table_insert_ok enc_error m t2 a v W2) as [-> _].
    cbn [bindd]. apply same_with.
  - apply negb_true_iff in F. destruct T as (_ & _ & T). destruct (has_flag_bits fl T) as (_ & _ & F4 & _ & ->). rewrite F.
    cbn [andb]. split; [|reflexivity]. unfold encode_literal. apply same_strings.
    destruct (has_flag fl 4); [|destruct (has_flag fl 8); split; reflexivity].
    destruct (@table_insert_ok enc_error m t n v W) as [-> _]. destruct (@table_insert_ok enc_error m t2 n v W2) as [-> _].
    split; reflexivity.
  - split; [|reflexivity]. unfold encoder_update_max.
    destruct (@table_update_ok enc_error m t n W T) as [-> _]. destruct (@table_update_ok enc_error m t2 n W2 T) as [-> _].
    cbn [bindd]. apply same_with.
Qed.
Lemma free_same m ops : forall t t2 dst, wf t -> wf t2 -> Forall op_typed ops -> forallb table_free ops = true ->
  snd (fst (run_ops m t dst ops)) = snd (fst (run_ops m t2 dst ops)) /\ headers (abs t) ops = headers (abs t2) ops.
Proof.
  induction ops as [|o ops IH]; intros t t2 dst W W2 T F; [repeat split|].
  inversion T as [|? ? T1 T2]; subst. cbn [forallb] in F. apply andb_true_iff in F. destruct F as [F1 F2].
  destruct (free_step m t t2 o dst W W2 T1 F1) as [[E1 _] E2].
  pose proof (HpackReach.op_step_table m t dst o W T1) as S1. pose proof (HpackReach.op_step_table m t2 dst o W2 T1) as S2.
  pose proof (HpackEncAlike.op_step_wf m t o dst W T1) as W3. pose proof (HpackEncAlike.op_step_wf m t2 o dst W2 T1) as W4.
  rewrite !run_ops_cons. unfold headers. rewrite !meaning_cons.
  destruct (op_step m t dst o) as [[ta da] ra]. destruct (op_step m t2 dst o) as [[tb db] rb]. cbn [fst snd] in E1, S1, S2, W3, W4. subst db.
  destruct (op_meaning (abs t) o) as [[d1 h1] r1]. destruct (op_meaning (abs t2) o) as [[d2 h2] r2]. cbn [fst snd] in E2, S1, S2. subst h2.
  destruct (IH ta tb da W3 W4 T2 F2) as [I1 I2]. rewrite S1, S2 in I2. rewrite !abs_conc in I2. unfold headers in I2.
  destruct (run_ops m ta da ops) as [[? ?] ?], (run_ops m tb da ops) as [[? ?] ?].
  destruct (meaning d1 ops) as [[? ?] ?], (meaning d2 ops) as [[? ?] ?]. cbn [fst snd] in *. subst. repeat split.
Qed.

Theorem free_read m m' ops d t dst : wf t -> wf (dtable d) -> dlimit d < 2 ^ 32 -> Forall (op_ok (dlimit d)) ops ->
  forallb table_free ops = true ->
  written m (dtable d) ops = written m t ops /\
  exists n, hdecode m' d (written m t ops) dst =
    ((set_table d (left_with m (dtable d) ops), [], dst ++ headers (abs t) ops), Ok n).
Proof.
  intros W Wd L Ho F. destruct (free_same m ops t (dtable d) [] W Wd (ops_typed _ _ L Ho) F) as [E1 E2].
  split; [now symmetry|]. destruct (session_sync m m' ops d (dtable d) dst Wd eq_refl L Ho) as (t' & out & n & Er & _ & Ed).
  exists n. unfold written, left_with. rewrite E1, E2, Er. exact Ed.
Qed.

(* ------------------------------------------------------------------ *)
(* When the two tables become equal. *)
Lemma fit_over k : forall max x, max < size k -> fit max (k ++ x) = fit max k.
Proof.
  induction k as [|e k IH]; intros max x H; cbn [size] in H; [lia|]. cbn [List.app fit].
  destruct (N.leb_spec (line_size e) max); [|reflexivity]. f_equal. apply IH. lia.
Qed.
Lemma fit_within k : forall max x, size k <= max -> fit max (k ++ x) = k ++ fit (max - size k) x.
Proof.
  induction k as [|e k IH]; intros max x H; cbn [size] in *; [cbn [List.app]; f_equal; lia|]. cbn [List.app fit].
  destruct (N.leb_spec (line_size e) max); [|lia]. f_equal. rewrite IH by lia. f_equal. f_equal. lia.
Qed.
Lemma fit_nil_iff max e l : fit max (e :: l) = [] <-> max < line_size e.
Proof. cbn [fit]. destruct (N.leb_spec (line_size e) max); split; intros; try discriminate; try reflexivity; lia. Qed.
Lemma fit_apart max x y : apart x y -> (fit max x = fit max y <-> crowded_out max 0 x /\ crowded_out max 0 y).
Proof.
  destruct x as [|e x], y as [|e' y]; cbn [apart crowded_out]; rewrite ?N.add_0_l.
  - intros _. split; [intros _; split; exact Logic.I|reflexivity].
  - intros _. change (fit max []) with (@nil field_line). split; [intros E; split; [exact Logic.I|symmetry in E; now apply fit_nil_iff in E]|].
    intros [_ H]. symmetry. now apply fit_nil_iff.
  - intros _. change (fit max []) with (@nil field_line). split; [intros E; split; [now apply fit_nil_iff in E|exact Logic.I]|].
    intros [H _]. now apply fit_nil_iff.
  - intros D. split.
    + intros E. cbn [fit] in E. destruct (N.leb_spec (line_size e) max) as [H|H], (N.leb_spec (line_size e') max) as [H'|H'];
        try discriminate E; [|split; assumption]. injection E as E _. contradiction.
    + intros [H H']. apply (proj2 (fit_nil_iff max e x)) in H. apply (proj2 (fit_nil_iff max e' y)) in H'. congruence.
Qed.
Lemma fit_common max k x y : apart x y ->
  (fit max (k ++ x) = fit max (k ++ y) <-> crowded_out max (size k) x /\ crowded_out max (size k) y).
Proof.
  intros A. destruct (N.le_gt_cases (size k) max) as [H|H].
  - rewrite !fit_within by exact H. transitivity (fit (max - size k) x = fit (max - size k) y).
    { split; [apply app_inv_head|now intros ->]. }
    rewrite fit_apart by exact A. destruct x as [|e x], y as [|e' y]; cbn [crowded_out]; split; intros [H1 H2]; split; try exact Logic.I; lia.
  - rewrite !fit_over by exact H. split; [intros _|reflexivity]. destruct x as [|e x], y as [|e' y]; cbn [crowded_out]; split; try exact Logic.I; lia.
Qed.

Lemma meaning_retain ops : forall d, Forall is_send ops -> size (entries d) <= max_size d ->
  max_size (fst (fst (meaning d ops))) = max_size d /\
  entries (fst (fst (meaning d ops))) = fit (max_size d) (stored (headers d ops) ++ entries d).
Proof.
  induction ops as [|o ops IH]; intros d Se Sz; [split; [reflexivity|symmetry; now apply fit_all]|].
  inversion Se as [|? ? S1 S2]; subst. unfold headers. rewrite meaning_cons. destruct (op_meaning d o) as [[d1 h] r] eqn:Em.
  destruct (op_retain d o d1 h r S1 Em Sz) as [M1 L1].
  assert (Sz1 : size (entries d1) <= max_size d1) by (rewrite L1, M1; apply fit_size).
  destruct (IH d1 S2 Sz1) as [M2 L2]. unfold headers in L2. destruct (meaning d1 ops) as [[d2 hs2] r2]. cbn [fst snd] in *.
  split; [congruence|]. rewrite L2, M1, L1, stored_app, <- app_assoc. apply fit_app_fit. lia.
Qed.
Lemma left_retain m t ops : wf t -> Forall op_typed ops -> Forall is_send ops ->
  left_with m t ops = conc (mkdyn (fit (dmax t) (stored (headers (abs t) ops) ++ inner t)) (dmax t)).
Proof.
  intros W T Se. unfold left_with. rewrite HpackReach.run_ops_table by assumption.
  destruct (meaning_retain ops (abs t) Se) as [M L]; [destruct W as (_ & H & _); exact H|].
  destruct (fst (fst (meaning (abs t) ops))) as [en mx]. cbn [entries max_size abs] in *. now rewrite L, M.
Qed.

Lemma conc_eq a b : conc a = conc b <-> a = b.
Proof. split; [|now intros ->]. intros E. rewrite <- (abs_conc a), <- (abs_conc b). now rewrite E. Qed.

Theorem recovered_iff m m' ops d t dst c x y : wf t -> wf (dtable d) -> dlimit d < 2 ^ 32 -> Forall (op_ok (dlimit d)) ops ->
  forallb table_free ops = true -> Forall is_send ops ->
  inner t = c ++ x -> inner (dtable d) = c ++ y -> apart x y ->
  exists d' n, hdecode m' d (written m t ops) dst = ((d', [], dst ++ headers (abs t) ops), Ok n) /\
    (dtable d' = left_with m t ops <->
     dmax (dtable d) = dmax t /\
     crowded_out (dmax t) (size (stored (headers (abs t) ops) ++ c)) x /\
     crowded_out (dmax t) (size (stored (headers (abs t) ops) ++ c)) y).
Proof.
  intros W Wd L Ho F Se Ex Ey A. pose proof (ops_typed _ _ L Ho) as T.
  destruct (free_read m m' ops d t dst W Wd L Ho F) as [_ [n E]]. eexists _, n. split; [exact E|].
  change (dtable (set_table d ?u)) with u. rewrite !left_retain by assumption.
  destruct (free_same m ops t (dtable d) [] W Wd T F) as [_ Eh]. rewrite <- Eh. set (s := stored (headers (abs t) ops)).
  rewrite conc_eq, Ex, Ey, !app_assoc. split.
  - intros E2. injection E2 as E2 E3. rewrite E3 in E2. split; [exact E3|]. symmetry in E2. now apply fit_common.
  - intros (E3 & H). rewrite E3. f_equal. symmetry. now apply fit_common.
Qed.

Theorem recovers m m' ops d t dst : wf t -> wf (dtable d) -> dlimit d < 2 ^ 32 -> Forall (op_ok (dlimit d)) ops ->
  forallb table_free ops = true -> Forall is_send ops ->
  dmax (dtable d) = dmax t -> dmax t < size (stored (headers (abs t) ops)) + 32 ->
  exists n, hdecode m' d (written m t ops) dst = ((set_table d (left_with m t ops), [], dst ++ headers (abs t) ops), Ok n).
Proof.
  intros W Wd L Ho F Se Em Hs. pose proof (ops_typed _ _ L Ho) as T.
  destruct (free_read m m' ops d t dst W Wd L Ho F) as [_ [n E]]. exists n. rewrite E.
  replace (left_with m (dtable d) ops) with (left_with m t ops); [reflexivity|]. rewrite !left_retain by assumption.
  destruct (free_same m ops t (dtable d) [] W Wd T F) as [_ Eh]. rewrite <- Eh, Em. set (s := stored (headers (abs t) ops)) in *.
  assert (G : forall l, fit (dmax t) (s ++ l) = fit (dmax t) s); [|now rewrite !G].
  intros l. destruct (N.le_gt_cases (size s) (dmax t)) as [H|H]; [|now apply fit_over].
  rewrite fit_within, (fit_all _ s) by exact H. destruct l as [|e l]; [apply app_nil_r|]. rewrite fit_tiny by lia. apply app_nil_r.
Qed.

Theorem resized_iff m m' n d t dst c x y : wf t -> wf (dtable d) -> dlimit d < 2 ^ 32 -> n <= dlimit d -> n <= MAX_UPDATE ->
  inner t = c ++ x -> inner (dtable d) = c ++ y -> apart x y ->
  exists d' k, hdecode m' d (written m t [Resize n]) dst = ((d', [], dst), Ok k) /\
    (dtable d' = left_with m t [Resize n] <-> crowded_out n (size c) x /\ crowded_out n (size c) y).
Proof.
  intros W Wd L H1 H2 Ex Ey A.
  assert (Ho : Forall (op_ok (dlimit d)) [Resize n]) by (constructor; [split; assumption|constructor]).
  pose proof (ops_typed _ _ L Ho) as T.
  destruct (free_read m m' [Resize n] d t dst W Wd L Ho eq_refl) as [_ [k E]]. eexists _, k. split.
  - rewrite E. change (headers (abs t) [Resize n]) with (@nil out_header). now rewrite app_nil_r.
  - change (dtable (set_table d ?u)) with u. unfold left_with. rewrite !HpackReach.run_ops_table by assumption.
    rewrite conc_eq. cbn [meaning fst]. unfold resize. cbn [abs entries]. rewrite Ex, Ey. rewrite <- (fit_common n c x y A). split.
    + intros E2. injection E2 as E2. now symmetry.
    + now intros ->.
Qed.

(* ------------------------------------------------------------------ *)
(* Best-format calls may keep it out of step for ever. *)
Lemma first_reference m t e rest fl dst : wf t -> inner t = e :: rest -> ~ In e rfc_static ->
  input_ok (Literal (fst e) (snd e) fl) -> N.testbit fl 4 = true ->
  hencode m t (Literal (fst e) (snd e) fl) dst = ((t, dst ++ [190]), Ok tt) /\
  field_of (inner t) (Literal (fst e) (snd e) fl) = Some e /\ flag_used (inner t) (Literal (fst e) (snd e) fl) = 0.
Proof.
  intros W E Hs Hi Hf. destruct e as [n v]. cbn [fst snd] in *.
  assert (El : lookup (inner t) 62 = Some (n, v)).
  { rewrite E. change 62 with (62 + 0). rewrite lookup_dynamic. reflexivity. }
  assert (Hc : chosen (inner t) (Literal n v fl) (RIndexed 62)).
  { apply (ch_best (inner t) n v fl (Some (62, true)) Hf). split; [exact El|]. intros j Hj Ej.
    destruct (N.eq_dec j 0) as [->|N0]; [discriminate Ej|]. rewrite lookup_static in Ej by lia. apply nth_error_In in Ej. contradiction. }
  destruct (hencode_ok m t (Literal n v fl) dst (RIndexed 62) W Hi Hc Logic.I) as (bs & d' & hs & Eh & Hin & _ & _ & H5 & _).
  specialize (Hin 0). cbn [interp] in Hin. change (entries (abs t)) with (inner t) in Hin. rewrite El in Hin. injection Hin as <- _.
  rewrite conc_abs in Eh by exact W. specialize (H5 Logic.I). inversion H5; subst.
  assert (Ebs : bs = [190]).
  { match goal with Hw : int_wire _ _ _ _ _ |- _ => inversion Hw as [v0 Hv Hlim|tl r0 Ht Hlim]; subst end; [reflexivity|exfalso; change (2 ^ 7 - 1) with 127 in *; lia]. }
  subst bs. split; [exact Eh|]. split; [reflexivity|].
  destruct (chosen_meaning 0 (abs t) _ _ Hc) as (n' & v' & Ef & Hm). cbn [interp] in Hm. change (entries (abs t)) with (inner t) in Hm.
  rewrite El in Hm. injection Hm as _ _ _ Hm. now symmetry.
Qed.

Theorem never_recovers m m' d t e e' rest rest' fl k dst : wf t -> wf (dtable d) ->
  inner t = e :: rest -> inner (dtable d) = e' :: rest' -> e <> e' -> ~ In e rfc_static ->
  input_ok (Literal (fst e) (snd e) fl) -> N.testbit fl 4 = true ->
  let ops := repeat (Send (Literal (fst e) (snd e) fl)) k in
  left_with m t ops = t /\
  headers (abs t) ops = repeat (fst e, snd e, 0) k /\
  hdecode m' d (written m t ops) dst = ((d, [], dst ++ repeat (fst e', snd e', 0) k), Ok (N.of_nat k)) /\
  (fst e', snd e') <> (fst e, snd e).
Proof.
  intros W Wd E E' Hne Hs Hi Hf ops.
  assert (R : forall k dst, run_ops m t dst (repeat (Send (Literal (fst e) (snd e) fl)) k) = (t, dst ++ repeat 190 k, repeat (Ok tt) k)).
  { clear - m W E Hs Hi Hf. induction k as [|k IH]; intros dst; [cbn; now rewrite app_nil_r|].
    cbn [repeat run_ops]. destruct (first_reference m t e rest fl dst W E Hs Hi Hf) as [-> _]. rewrite IH, <- app_assoc. reflexivity. }
  assert (H : forall k, meaning (abs t) (repeat (Send (Literal (fst e) (snd e) fl)) k) = (abs t, repeat (fst e, snd e, 0) k, repeat (Ok tt) k)).
  { clear - m W E Hs Hi Hf. destruct (first_reference m t e rest fl [] W E Hs Hi Hf) as (_ & F & G). destruct e as [n v]. cbn [fst snd] in *.
    induction k as [|k IH]; [reflexivity|]. cbn [repeat]. rewrite meaning_cons. unfold op_meaning at 1. change (entries (abs t)) with (inner t).
    rewrite F, G. change (0 =? 4) with false. cbv iota. rewrite IH. reflexivity. }
  unfold ops, left_with, written, headers. rewrite (R k []), (H k). cbn [fst snd List.app]. refine (conj eq_refl (conj eq_refl (conj _ _))).
  - destruct e' as [n' v']. cbn [fst snd].
    assert (El : lookup (inner (dtable d)) 62 = Some (n', v')).
    { rewrite E'. change 62 with (62 + 0). rewrite lookup_dynamic. reflexivity. }
    assert (Hw : int_wire 5 7 1 [190] 62) by (apply (int_short 5 7 1 62); [reflexivity|lia]).
    set (prs := repeat ([190], RIndexed 62) k).
    assert (Ew : wire_octets prs = repeat 190 k).
    { unfold prs, wire_octets. clear. induction k as [|k IH]; [reflexivity|]. cbn [repeat map concat fst List.app]. now rewrite IH. }
    assert (Ec : counted prs = N.of_nat k).
    { unfold prs. clear. induction k as [|k IH]; [reflexivity|]. cbn [repeat counted fold_right snd fst is_size List.length]. fold (counted (repeat ([190], RIndexed 62) k)). rewrite IH. lia. }
    pose proof (hdecode_ok m' d prs [] (abs (dtable d)) (repeat (n', v', 0) k) Done dst Wd) as D. rewrite Ew, app_nil_r in D.
    rewrite D; clear D.
    + rewrite conc_abs by exact Wd. rewrite same_dec by reflexivity. cbn [stop_outcome]. now rewrite Ec.
    + apply Forall_forall. intros b Hb. apply repeat_spec in Hb. subst b. reflexivity.
    + apply Forall_forall. intros pr Hp. apply repeat_spec in Hp. subst pr. exact (wire_indexed _ _ _ _ Hw).
    + unfold prs. clear - El. induction k as [|k IH]; [reflexivity|]. cbn [repeat reprs map snd interp_all]. fold (reprs (repeat ([190], RIndexed 62) k)).
      cbn [interp]. change (entries (abs (dtable d))) with (inner (dtable d)). rewrite El, IH. reflexivity.
    + constructor.
  - rewrite <- !surjective_pairing. congruence.
Qed.
