(* Which encoders can be told apart by encoding (C111). *)
From Verif Require Import Base HuffTables HuffModel HuffSpec Leb HpackStatic HpackModel
  HpackSpec HpackApi HpackInt HpackStr HpackTab HpackDec HpackEnc HpackDerived HpackMore HpackAlike.
Open Scope list_scope.
Open Scope N_scope.

(* ------------------------------------------------------------------ *)
(* Specification vocabulary. *)

(* What a caller sees of a sequence of calls of encode and update_max_dynamic_size that
   starts with an empty output: the octets appended and the result of each call. *)
Definition enc_answers (m : mode) (t : table) (ops : list op) : list N * list (outcome enc_error unit) :=
  let '(_, out, rs) := run_ops m t [] ops in (out, rs).
(* Two encoders that answer every such sequence alike. *)
Definition enc_alike (m : mode) (t1 t2 : table) : Prop :=
  forall ops, Forall op_typed ops -> enc_answers m t1 ops = enc_answers m t2 ops.

(* The entry at position i is in the static table, or again at a smaller position. *)
Definition repeated (l : list field_line) (i : nat) : Prop :=
  exists e, nth_error l i = Some e /\ In e (rfc_static ++ firstn i l).
(* The same names and the same sizes position by position, and the same values except where
   both entries are repetitions. *)
Definition same_lines (l1 l2 : list field_line) : Prop :=
  map fst l1 = map fst l2 /\ map line_size l1 = map line_size l2 /\
  forall i, nth_error l1 i = nth_error l2 i \/ repeated l1 i /\ repeated l2 i.
Definition enc_same (t1 t2 : table) : Prop :=
  same_lines (inner t1) (inner t2) /\ (dmax t1 = dmax t2 \/ dmax t1 < 32 /\ dmax t2 < 32).

(* ------------------------------------------------------------------ *)
(* Same state, same answers. *)
Lemma same_lines_sym a b : same_lines a b -> same_lines b a.
Proof.
  intros (N1 & S1 & V). split; [now symmetry|split; [now symmetry|]]. intros i. destruct (V i) as [E|[A B]]; [left; now symmetry|right; now split].
Qed.
Lemma same_lines_refl a : same_lines a a.
Proof. split; [reflexivity|split; [reflexivity|]]. intros i. now left. Qed.
Lemma same_lines_length a b : same_lines a b -> List.length a = List.length b.
Proof. intros (E & _). rewrite <- (map_length fst a), <- (map_length fst b). now rewrite E. Qed.

Lemma repeated_cons e l i : repeated l i -> repeated (e :: l) (S i).
Proof.
  intros (x & Hx & Hin). exists x. split; [exact Hx|]. rewrite firstn_cons. apply in_app_or in Hin. apply in_or_app.
  destruct Hin as [H|H]; [now left|right; now right].
Qed.
Lemma same_lines_cons e a b : same_lines a b -> same_lines (e :: a) (e :: b).
Proof.
  intros (N1 & S1 & V). split; [cbn [map]; now rewrite N1|split; [cbn [map]; now rewrite S1|]]. intros [|i]; [now left|].
  destruct (V i) as [E|[A B]]; [left; exact E|right]. split; now apply repeated_cons.
Qed.

Lemma nth_firstn {A} (l : list A) : forall k i, (i < k)%nat -> nth_error (firstn k l) i = nth_error l i.
Proof.
  induction l as [|x l IH]; intros k i H; [now rewrite firstn_nil|]. destruct k as [|k]; [lia|]. destruct i as [|i]; [reflexivity|].
  cbn [firstn nth_error]. apply IH. lia.
Qed.
Lemma repeated_firstn l k i : (i < k)%nat -> repeated l i -> repeated (firstn k l) i.
Proof.
  intros H (x & Hx & Hin). exists x. rewrite nth_firstn by exact H. split; [exact Hx|].
  rewrite firstn_firstn, Nat.min_l by lia. exact Hin.
Qed.
Lemma same_lines_firstn k a b : same_lines a b -> same_lines (firstn k a) (firstn k b).
Proof.
  intros (N1 & S1 & V).
  split; [now rewrite <- !firstn_map, N1|split; [now rewrite <- !firstn_map, S1|]]. intros i.
  destruct (Nat.lt_ge_cases i k) as [H|H].
  - rewrite !nth_firstn by exact H. destruct (V i) as [E|[A B]]; [left; exact E|right]. split; now apply repeated_firstn.
  - left. rewrite !(proj2 (nth_error_None _ _)); [reflexivity| |]; rewrite firstn_length; lia.
Qed.
(* How many entries survive depends on their sizes only. *)
Fixpoint kept (max : N) (ss : list N) : nat :=
  match ss with [] => 0%nat | s :: ss' => if s <=? max then S (kept (max - s) ss') else 0%nat end.
Lemma fit_kept l : forall max, fit max l = firstn (kept max (map line_size l)) l.
Proof.
  induction l as [|e l IH]; intros max; [reflexivity|]. cbn [fit map kept]. destruct (line_size e <=? max); [|reflexivity].
  cbn [firstn]. now rewrite IH.
Qed.
Lemma same_lines_fit max a b : same_lines a b -> same_lines (fit max a) (fit max b).
Proof. intros H. rewrite !fit_kept. rewrite (proj1 (proj2 H)). now apply same_lines_firstn. Qed.

Lemma same_names a b i e : same_lines a b -> lookup a i = Some e -> exists e', lookup b i = Some e' /\ fst e' = fst e.
Proof.
  intros (N1 & _) H. unfold lookup in *. destruct (i =? 0); [discriminate|].
  assert (M : map fst (rfc_static ++ a) = map fst (rfc_static ++ b)) by (rewrite !map_app; now rewrite N1).
  pose proof (map_nth_error fst _ _ H) as K. rewrite M in K.
  destruct (nth_error (rfc_static ++ b) (N.to_nat (i - 1))) as [e'|] eqn:E.
  - exists e'. split; [reflexivity|]. rewrite (map_nth_error fst _ _ E) in K. now injection K.
  - apply nth_error_None in E. assert (K' : nth_error (map fst (rfc_static ++ b)) (N.to_nat (i - 1)) = None) by (apply nth_error_None; now rewrite map_length).
    rewrite K' in K. discriminate.
Qed.
(* Every line of one is found at least as soon in the other. *)
Lemma sooner a b : same_lines a b -> forall k i e, (N.to_nat i <= k)%nat -> lookup b i = Some e -> exists j, j <= i /\ lookup a j = Some e.
Proof.
  intros H. induction k as [|k IH]; intros i e Hk Hi.
  { apply lookup_bound in Hi. lia. }
  pose proof (lookup_bound _ _ _ Hi) as B. destruct (N.le_gt_cases i 61) as [L|L].
  { exists i. split; [lia|]. rewrite lookup_static in * by lia. exact Hi. }
  set (q := i - 62). assert (Eq : i = 62 + q) by lia. rewrite Eq, lookup_dynamic in Hi.
  destruct (proj2 (proj2 H) (N.to_nat q)) as [E|[_ (e' & He' & Hin)]].
  { exists i. split; [lia|]. rewrite Eq, lookup_dynamic. now rewrite E. }
  rewrite Hi in He'. injection He' as <-. apply in_app_or in Hin. destruct Hin as [Hin|Hin].
  - apply In_nth_error in Hin. destruct Hin as [p Hp].
    assert (Lp : (p < 61)%nat) by (change 61%nat with (List.length rfc_static); apply nth_error_Some; now rewrite Hp).
    exists (N.of_nat p + 1). split; [lia|]. rewrite lookup_static by lia. replace (N.to_nat (N.of_nat p + 1 - 1)) with p by lia. exact Hp.
  - apply In_nth_error in Hin. destruct Hin as [p Hp].
    assert (Lp : (p < N.to_nat q)%nat).
    { assert (F : nth_error (firstn (N.to_nat q) b) p <> None) by (now rewrite Hp). apply nth_error_Some in F. rewrite firstn_length in F. lia. }
    rewrite nth_firstn in Hp by exact Lp.
    destruct (IH (62 + N.of_nat p) e) as (j & Hj & Ej); [lia|now rewrite lookup_dynamic, Nat2N.id|]. exists j. split; [lia|exact Ej].
Qed.
Lemma same_find a b n v r : same_lines a b -> find_spec (lookup a) n v r -> find_spec (lookup b) n v r.
Proof.
  intros H. pose proof (same_lines_sym _ _ H) as H'.
  assert (Sab : forall i e, lookup b i = Some e -> exists j, j <= i /\ lookup a j = Some e) by (intros i e; apply (sooner a b H (N.to_nat i)); lia).
  assert (Sba : forall i e, lookup a i = Some e -> exists j, j <= i /\ lookup b j = Some e) by (intros i e; apply (sooner b a H' (N.to_nat i)); lia).
  assert (Nab : forall i v', lookup b i = Some (n, v') -> exists w, lookup a i = Some (n, w)).
  { intros i v' E. destruct (same_names b a i _ H' E) as ([n' w] & E' & F). cbn [fst] in F. subst n'. now exists w. }
  destruct r as [[i []]|]; cbn [find_spec].
  - intros [E M]. destruct (Sba _ _ E) as (j & Hj & Ej). destruct (Sab _ _ Ej) as (j' & Hj' & Ej').
    assert (j' = i) by (destruct (N.lt_ge_cases j' i) as [G|G]; [destruct (M j' G Ej')|lia]). assert (j = i) by lia. subst j. split; [exact Ej|].
    intros k Hk Ek. destruct (Sab _ _ Ek) as (k' & Hk' & Ek'). apply (M k'); [lia|exact Ek'].
  - intros ([w E] & M & M'). split; [|split].
    + destruct (same_names a b i _ H E) as ([n' w'] & E' & F). cbn [fst] in F. subst n'. now exists w'.
    + intros j v' Hj Ej. destruct (Nab _ _ Ej) as [w' Ew]. exact (M j w' Hj Ew).
    + intros j Ej. destruct (Sab _ _ Ej) as (j' & _ & Ej'). exact (M' j' Ej').
  - intros M j v' Ej. destruct (Nab _ _ Ej) as [w' Ew]. exact (M j w' Ew).
Qed.

Lemma enc_same_sym a b : enc_same a b -> enc_same b a.
Proof. intros [L M]. split; [now apply same_lines_sym|lia]. Qed.
Lemma enc_same_insert t1 t2 e : enc_same t1 t2 -> enc_same (conc (insert (abs t1) e)) (conc (insert (abs t2) e)).
Proof.
  intros [L M]. split; [|exact M]. cbn [inner conc insert abs entries max_size]. destruct M as [->|[M1 M2]].
  - now apply same_lines_fit, same_lines_cons.
  - rewrite !fit_tiny by assumption. apply same_lines_refl.
Qed.
Lemma enc_same_resize t1 t2 n : enc_same t1 t2 -> enc_same (conc (resize (abs t1) n)) (conc (resize (abs t2) n)).
Proof. intros [L M]. split; [|now left]. cbn [inner conc resize abs entries max_size]. now apply same_lines_fit. Qed.

(* The two calls append the same, answer the same, and leave such tables. *)
Definition in_step (x y : enc_state * outcome enc_error unit) : Prop :=
  exists t1 t2 out r, x = ((t1, out), r) /\ y = ((t2, out), r) /\ wf t1 /\ wf t2 /\ enc_same t1 t2.
Lemma in_step_with t1 t2 (x : list N * outcome enc_error unit) : wf t1 -> wf t2 -> enc_same t1 t2 -> in_step (with_table t1 x) (with_table t2 x).
Proof. intros W1 W2 S. destruct x as [o r]. exists t1, t2, o, r. auto. Qed.
Lemma in_step_binds x y f : in_step x y -> (forall t1 t2 out, wf t1 -> wf t2 -> enc_same t1 t2 -> in_step (f (t1, out) tt) (f (t2, out) tt)) ->
  in_step (binds x f) (binds y f).
Proof.
  intros (t1 & t2 & out & r & -> & -> & W1 & W2 & S) K. destruct r as [[]|e| |]; cbn [binds].
  - now apply K.
  - exists t1, t2, out, (Err e). auto 6.
  - exists t1, t2, out, Panic. auto 6.
  - exists t1, t2, out, OutOfFuel. auto 6.
Qed.
Lemma in_step_indexed t1 t2 i dst : wf t1 -> wf t2 -> enc_same t1 t2 -> in_step (encode_indexed t1 i dst) (encode_indexed t2 i dst).
Proof.
  intros W1 W2 S. unfold encode_indexed. rewrite !get_lookup. destruct (lookup (inner t1) i) as [e|] eqn:E.
  - destruct (same_names _ _ i e (proj1 S) E) as (e' & -> & _). now apply in_step_with.
  - destruct (lookup (inner t2) i) as [e'|] eqn:E'.
    + destruct (same_names _ _ i e' (same_lines_sym _ _ (proj1 S)) E') as (x & Ex & _). congruence.
    + exists t1, t2, dst, (Err EInvalidIndex). auto.
Qed.
Lemma in_step_insert m t1 t2 n v dst (k : list N * outcome enc_error unit) : wf t1 -> wf t2 -> enc_same t1 t2 ->
  in_step (bindd (t1, dst) (table_insert m t1 n v) (fun t' => with_table t' k)) (bindd (t2, dst) (table_insert m t2 n v) (fun t' => with_table t' k)).
Proof.
  intros W1 W2 S. destruct (@table_insert_ok enc_error m t1 n v W1) as [-> X1]. destruct (@table_insert_ok enc_error m t2 n v W2) as [-> X2].
  cbn [bindd]. apply in_step_with; auto. now apply enc_same_insert.
Qed.
Lemma in_step_indexed_name m t1 t2 i v fl dst : wf t1 -> wf t2 -> enc_same t1 t2 ->
  in_step (encode_indexed_name m t1 i v fl dst) (encode_indexed_name m t2 i v fl dst).
Proof.
  intros W1 W2 S. unfold encode_indexed_name. rewrite !get_lookup. destruct (lookup (inner t1) i) as [e|] eqn:E.
  - destruct (same_names _ _ i e (proj1 S) E) as (e' & -> & F). cbv zeta. rewrite F. apply in_step_binds.
    + destruct (has_flag fl 4); [|destruct (has_flag fl 8)]; try now apply in_step_with. now apply in_step_insert.
    + intros a b out Wa Wb Sab. cbn [fst snd]. now apply in_step_with.
  - destruct (lookup (inner t2) i) as [e'|] eqn:E'.
    + destruct (same_names _ _ i e' (same_lines_sym _ _ (proj1 S)) E') as (x & Ex & _). congruence.
    + exists t1, t2, dst, (Err EInvalidIndex). auto.
Qed.
Lemma in_step_literal m t1 t2 n v fl dst : wf t1 -> wf t2 -> enc_same t1 t2 ->
  in_step (encode_literal m t1 n v fl dst) (encode_literal m t2 n v fl dst).
Proof.
  intros W1 W2 S. unfold encode_literal. apply in_step_binds.
  - destruct (has_flag fl 4); [|destruct (has_flag fl 8)].
    + destruct (@table_insert_ok enc_error m t1 n v W1) as [-> X1]. destruct (@table_insert_ok enc_error m t2 n v W2) as [-> X2].
      cbn [bindd]. eexists _, _, _, _. split; [reflexivity|]. split; [reflexivity|]. split; [exact X1|]. split; [exact X2|]. now apply enc_same_insert.
    + exists t1, t2, (dst ++ [16]), (Ok tt). auto.
    + exists t1, t2, (dst ++ [0]), (Ok tt). auto.
  - intros a b out Wa Wb Sab. cbn [fst snd]. apply in_step_binds; [now apply in_step_with|].
    intros a' b' out' Wa' Wb' Sab'. cbn [fst snd]. now apply in_step_with.
Qed.
Lemma in_step_op m t1 t2 o dst : wf t1 -> wf t2 -> enc_same t1 t2 -> op_typed o -> in_step (op_step m t1 dst o) (op_step m t2 dst o).
Proof.
  intros W1 W2 S Ho. destruct o as [[i|i v fl|n v fl]|n]; cbn [op_step hencode].
  - now apply in_step_indexed.
  - now apply in_step_indexed_name.
  - destruct (has_flag fl 16); [|now apply in_step_literal].
    destruct (@table_find_ok enc_error m t1 n v W1) as (r1 & -> & F1). destruct (@table_find_ok enc_error m t2 n v W2) as (r2 & -> & F2).
    assert (r1 = r2) as -> by (apply (find_spec_unique (lookup (inner t2)) n v); [reflexivity| |exact F2]; now apply (same_find (inner t1)); [apply S|]).
    cbn [bindd]. destruct r2 as [[i []]|]; [now apply in_step_indexed|now apply in_step_indexed_name|now apply in_step_literal].
  - unfold encoder_update_max. cbn [op_typed] in Ho. destruct (@table_update_ok enc_error m t1 n W1 Ho) as [-> X1]. destruct (@table_update_ok enc_error m t2 n W2 Ho) as [-> X2].
    cbn [bindd]. apply in_step_with; auto. now apply enc_same_resize.
Qed.
Theorem enc_same_run m ops : forall t1 t2 dst, wf t1 -> wf t2 -> enc_same t1 t2 -> Forall op_typed ops ->
  exists t1' t2' out rs, run_ops m t1 dst ops = (t1', out, rs) /\ run_ops m t2 dst ops = (t2', out, rs) /\ wf t1' /\ wf t2' /\ enc_same t1' t2'.
Proof.
  induction ops as [|o ops IH]; intros t1 t2 dst W1 W2 S Ho.
  - exists t1, t2, dst, []. auto.
  - inversion Ho as [|? ? O1 O2]; subst. rewrite !run_ops_cons.
    destruct (in_step_op m t1 t2 o dst W1 W2 S O1) as (a & b & out & r & -> & -> & Wa & Wb & Sab).
    destruct (IH a b out Wa Wb Sab O2) as (a' & b' & out' & rs & -> & -> & Wa' & Wb' & Sab').
    exists a', b', out', (r :: rs). auto.
Qed.
Theorem enc_same_alike m t1 t2 : wf t1 -> wf t2 -> enc_same t1 t2 -> enc_alike m t1 t2.
Proof.
  intros W1 W2 S ops Ho. unfold enc_answers. destruct (enc_same_run m ops t1 t2 [] W1 W2 S Ho) as (a & b & out & rs & -> & -> & _). reflexivity.
Qed.

(* ------------------------------------------------------------------ *)
(* Different states: calls that tell them apart. *)
Lemma enc_alike_sym m a b : enc_alike m a b -> enc_alike m b a.
Proof. intros H ops Ho. symmetry. now apply H. Qed.
Lemma op_step_wf m t o dst : wf t -> op_typed o -> wf (fst (fst (op_step m t dst o))).
Proof.
  intros W Ho. pose proof (run_ops_wf m [o] t dst W (Forall_cons o Ho (Forall_nil _))) as [H _].
  rewrite run_ops_cons in H. destruct (op_step m t dst o) as [[t' d'] r]. exact H.
Qed.
(* Encoders that are alike answer a call alike, and are alike afterwards. *)
Lemma alike_step m t1 t2 o a b x y r s : wf t1 -> wf t2 -> enc_alike m t1 t2 -> op_typed o ->
  op_step m t1 [] o = ((a, x), r) -> op_step m t2 [] o = ((b, y), s) -> x = y /\ r = s /\ enc_alike m a b.
Proof.
  intros W1 W2 H Ho E1 E2. pose proof (op_step_wf m t1 o [] W1 Ho) as Wa. pose proof (op_step_wf m t2 o [] W2 Ho) as Wb.
  rewrite E1 in Wa. rewrite E2 in Wb. cbn [fst] in Wa, Wb.
  assert (H1 := H [o] (Forall_cons o Ho (Forall_nil _))). unfold enc_answers in H1. rewrite !run_ops_cons, E1, E2 in H1. cbn [run_ops] in H1.
  injection H1 as -> ->. split; [reflexivity|split; [reflexivity|]]. intros ops Hops.
  specialize (H (o :: ops) (Forall_cons o Ho Hops)). unfold enc_answers in *. rewrite !run_ops_cons, E1, E2 in H.
  destruct (run_ops_same m m ops a [] y Wa Hops) as (a' & oa & ra & Ea & Ea'). destruct (run_ops_same m m ops b [] y Wb Hops) as (b' & ob & rb & Eb & Eb').
  rewrite Ea', Eb' in H. rewrite Ea, Eb. injection H as H1 ->. apply app_inv_head in H1. now rewrite H1.
Qed.
Lemma alike_index m t1 t2 i e : wf t1 -> wf t2 -> enc_alike m t1 t2 -> lookup (inner t1) i = Some e -> lookup (inner t2) i <> None.
Proof.
  intros W1 W2 H E F. pose proof (lookup_index_small t1 i e W1 E) as Hi.
  assert (Ho : op_typed (Send (Indexed i))) by (cbn [op_typed input_ok]; change (2 ^ 28) with 268435456 in Hi; change (2 ^ 32) with 4294967296; lia).
  destruct (encode_indexed_ok m t1 i [] e W1 E) as (bs & d' & hs & E1 & _).
  assert (E2 : op_step m t2 [] (Send (Indexed i)) = ((t2, []), Err EInvalidIndex)) by (apply hencode_refused; exact F).
  destruct (alike_step m t1 t2 _ _ _ _ _ _ _ W1 W2 H Ho E1 E2) as (_ & K & _). discriminate K.
Qed.
Lemma alike_resize m t1 t2 n : wf t1 -> wf t2 -> enc_alike m t1 t2 -> n < 2 ^ 32 ->
  wf (conc (resize (abs t1) n)) /\ wf (conc (resize (abs t2) n)) /\ enc_alike m (conc (resize (abs t1) n)) (conc (resize (abs t2) n)).
Proof.
  intros W1 W2 H Hn. destruct (encoder_update_ok m t1 n [] W1 Hn) as (b1 & E1 & _ & _ & _ & X1).
  destruct (encoder_update_ok m t2 n [] W2 Hn) as (b2 & E2 & _ & _ & _ & X2). split; [exact X1|split; [exact X2|]].
  destruct (alike_step m t1 t2 (Resize n) _ _ _ _ _ _ W1 W2 H Hn E1 E2) as (_ & _ & K). exact K.
Qed.
Lemma alike_le m t1 t2 : wf t1 -> wf t2 -> enc_alike m t1 t2 -> (List.length (inner t1) <= List.length (inner t2))%nat.
Proof.
  intros W1 W2 H. destruct (Nat.le_gt_cases (List.length (inner t1)) (List.length (inner t2))) as [|G]; [assumption|exfalso].
  set (k := List.length (inner t2)) in *. destruct (nth_error (inner t1) k) as [e|] eqn:E; [|apply nth_error_None in E; lia].
  apply (alike_index m t1 t2 (62 + N.of_nat k) e W1 W2 H); rewrite lookup_dynamic, Nat2N.id; [exact E|]. apply nth_error_None. unfold k. lia.
Qed.
Lemma size_firstn_le k l : size (firstn k l) <= size l.
Proof. rewrite <- (firstn_skipn k l) at 2. rewrite size_app. lia. Qed.
(* The newest entries take the same room. *)
Lemma alike_room m t1 t2 k : wf t1 -> wf t2 -> enc_alike m t1 t2 -> size (firstn k (inner t2)) <= size (firstn k (inner t1)).
Proof.
  intros W1 W2 H. assert (LE : List.length (inner t1) = List.length (inner t2)).
  { apply Nat.le_antisymm; [now apply (alike_le m)|apply (alike_le m); auto; now apply enc_alike_sym]. }
  set (X := size (firstn k (inner t1))).
  assert (HX : X < 2 ^ 32) by (pose proof (size_firstn_le k (inner t1)); destruct W1 as (_ & A & B); unfold X; lia).
  destruct (alike_resize m t1 t2 X W1 W2 H HX) as (Wa & Wb & K).
  pose proof (alike_le m _ _ Wa Wb K) as L. cbn [inner conc resize abs entries max_size] in L.
  destruct (fit_fits X (inner t1)) as (_ & _ & M). specialize (M (firstn k (inner t1))).
  assert (L1 : (List.length (firstn k (inner t1)) <= List.length (fit X (inner t1)))%nat).
  { apply M; [|apply N.le_refl]. exists (skipn k (inner t1)). symmetry. apply firstn_skipn. }
  destruct (fit_prefix X (inner t2)) as [t T]. pose proof (fit_size X (inner t2)) as Sz. set (F := fit X (inner t2)) in *.
  assert (P : firstn k (inner t2) = firstn k F).
  { assert (LF : (List.length (firstn k (inner t2)) <= List.length F)%nat) by (rewrite firstn_length in *; lia).
    rewrite T at 1. rewrite firstn_app. rewrite firstn_length, T, app_length in LF.
    destruct (Nat.le_gt_cases k (List.length F)) as [G|G].
    - replace (k - List.length F)%nat with 0%nat by lia. now rewrite firstn_O, app_nil_r.
    - assert (List.length t = 0%nat) as Z by lia. apply length_zero_iff_nil in Z. subst t. now rewrite firstn_nil, app_nil_r. }
  rewrite P. pose proof (size_firstn_le k F). lia.
Qed.
Lemma sizes_of_rooms : forall a b, List.length a = List.length b -> (forall k, size (firstn k a) = size (firstn k b)) -> map line_size a = map line_size b.
Proof.
  induction a as [|x a IH]; intros [|y b] L H; try discriminate L; [reflexivity|]. cbn [map].
  pose proof (H 1%nat) as H1. cbn [firstn size] in H1. assert (E : line_size x = line_size y) by lia. f_equal; [exact E|].
  apply IH; [now injection L|]. intros k. specialize (H (S k)). cbn [firstn size] in H. lia.
Qed.

(* Two answers to an attempt to find a line. *)
Lemma int_head lim p hi bs v : prefix_ok p -> int_wire lim p hi bs v -> exists b t, bs = b :: t /\ hi * 2 ^ p <= b < (hi + 1) * 2 ^ p.
Proof.
  intros Hp H. pose proof (mask_pos p Hp) as Hm. rewrite N.mul_add_distr_r, N.mul_1_l.
  assert (0 < 2 ^ p) by lia. inversion H; subst; eexists _, _; (split; [reflexivity|]); lia.
Qed.
Lemma found_alike m t1 t2 n v i : wf t1 -> wf t2 -> enc_alike m t1 t2 -> bytes n -> bytes v ->
  find_spec (lookup (inner t1)) n v (Some (i, true)) -> lookup (inner t2) i = Some (n, v).
Proof.
  intros W1 W2 H Hn Hv F1.
  assert (Ho : op_typed (Send (Literal n v 16))) by (refine (conj Hn (conj Hv _)); reflexivity).
  assert (C1 : chosen (inner t1) (Literal n v 16) (RIndexed i)) by exact (ch_best (inner t1) n v 16 (Some (i, true)) eq_refl F1).
  destruct (hencode_ok m t1 (Literal n v 16) [] _ W1 Ho C1 I) as (b1 & d1 & h1 & E1 & _ & _ & _ & R1 & B1). specialize (R1 I).
  destruct (hencode_cases m t2 (Literal n v 16) [] W2 Ho) as [[X _]|(r & Hr & [[_ X]|[_ X]])]; [discriminate X| |].
  - destruct X as (b2 & d2 & h2 & E2 & _ & _ & R2 & _).
    destruct (alike_step m t1 t2 (Send (Literal n v 16)) _ _ _ _ _ _ W1 W2 H Ho E1 E2) as (Eb & _ & _). cbn [app] in Eb. subst b2.
    inversion R1 as [? ? I1| | |]; subst. inversion Hr as [| |? ? ? Q|? ? ? found Q F2]; subst.
    { cbn in Q. discriminate Q. }
    destruct found as [[j []]|].
    + inversion R2 as [? ? I2| | |]; subst. destruct (int_wire_unique 7 1 1 5 6 b1 i b1 j [] [] p7 I1 I2 eq_refl) as (_ & -> & _). apply F2.
    + exfalso. destruct (int_head 5 7 1 b1 i p7 I1) as (x & tl & Ex & Bx). change (kind_of 16) with WithoutIndexing in R2.
      inversion R2 as [|? bi ? ? ? ? I2 _ _| |]; subst. destruct (int_head 6 _ _ bi j (kp_ok WithoutIndexing) I2) as (y & tl' & Ey & By).
      subst bi. match goal with Q : _ = x :: tl |- _ => cbn [app] in Q; injection Q as -> _ end.
      cbn [kind_bits kind_prefix] in By. change (2 ^ 4) with 16 in By. change (2 ^ 7) with 128 in Bx. lia.
    + exfalso. destruct (int_head 5 7 1 b1 i p7 I1) as (x & tl & Ex & Bx). change (kind_of 16) with WithoutIndexing in R2.
      inversion R2 as [| |? bi ? ? ? ? ? ? I2 _ _|]; subst. destruct (int_head 6 _ _ bi 0 (kp_ok WithoutIndexing) I2) as (y & tl' & Ey & By).
      subst bi. match goal with Q : _ = x :: tl |- _ => cbn [app] in Q; injection Q as -> _ end.
      cbn [kind_bits kind_prefix] in By. change (2 ^ 4) with 16 in By. change (2 ^ 7) with 128 in Bx. lia.
  - destruct X as (d2 & h2 & j2 & E2 & _).
    destruct (alike_step m t1 t2 (Send (Literal n v 16)) _ _ _ _ _ _ W1 W2 H Ho E1 E2) as (_ & K & _). discriminate K.
Qed.

(* Adding a line to both. *)
Lemma alike_add m t1 t2 f n1 n2 v hv nr1 : wf t1 -> wf t2 -> enc_alike m t1 t2 -> op_typed (Send f) ->
  chosen (inner t1) f (RLiteral WithIndexing nr1 hv v) -> chosen (inner t2) f (RLiteral WithIndexing nr1 hv v) ->
  strings_within U32_MAX (RLiteral WithIndexing nr1 hv v) ->
  resolve (abs t1) nr1 = Some n1 -> resolve (abs t2) nr1 = Some n2 ->
  wf (conc (insert (abs t1) (n1, v))) /\ wf (conc (insert (abs t2) (n2, v))) /\
  enc_alike m (conc (insert (abs t1) (n1, v))) (conc (insert (abs t2) (n2, v))).
Proof.
  intros W1 W2 H Ho C1 C2 Hs Hr1 Hr2.
  destruct (hencode_ok m t1 f [] _ W1 Ho C1 Hs) as (b1 & d1 & h1 & E1 & I1 & X1 & _).
  destruct (hencode_ok m t2 f [] _ W2 Ho C2 Hs) as (b2 & d2 & h2 & E2 & I2 & X2 & _).
  specialize (I1 0). specialize (I2 0). cbn [interp] in I1, I2. rewrite Hr1 in I1. rewrite Hr2 in I2.
  injection I1 as I1 _. injection I2 as I2 _. subst d1 d2. split; [exact X1|split; [exact X2|]].
  now destruct (alike_step m t1 t2 (Send f) _ _ _ _ _ _ W1 W2 H Ho E1 E2).
Qed.

Definition octet_line (e : field_line) : Prop := bytes (fst e) /\ bytes (snd e).

Lemma static_short e : In e rfc_static -> N.of_nat (List.length (fst e)) <= 100.
Proof.
  intros H. assert (F : forallb (fun x => N.of_nat (List.length (fst x)) <=? 100) rfc_static = true) by (vm_compute; reflexivity).
  rewrite forallb_forall in F. specialize (F e H). now apply N.leb_le.
Qed.
Lemma static_no_zero n : ~ In (n, [0]) rfc_static.
Proof.
  intros H. assert (F : forallb (fun x => negb (list_eqb (snd x) [0])) rfc_static = true) by (vm_compute; reflexivity).
  rewrite forallb_forall in F. specialize (F _ H). discriminate F.
Qed.
(* A value that makes a line of this name new to the static table, and no longer than needed. *)
Lemma new_value n M : N.of_nat (List.length n) + 32 <= M -> 200 <= M ->
  exists v, bytes v /\ ~ In (n, v) rfc_static /\ line_size (n, v) <= M /\ N.of_nat (List.length v) <= 1.
Proof.
  intros Hn HM. destruct (in_dec line_eq_dec (n, []) rfc_static) as [Hin|Hno].
  - exists [0]. pose proof (static_short _ Hin) as L. cbn [fst] in L. split; [repeat constructor|]. split; [apply static_no_zero|].
    unfold line_size. cbn [fst snd List.length]. lia.
  - exists []. split; [constructor|]. split; [exact Hno|]. unfold line_size. cbn [fst snd List.length]. lia.
Qed.

Lemma alike_names m t1 t2 i n1 w1 n2 w2 : wf t1 -> wf t2 -> enc_alike m t1 t2 -> bytes n1 ->
  nth_error (inner t1) i = Some (n1, w1) -> nth_error (inner t2) i = Some (n2, w2) -> n1 = n2.
Proof.
  intros W1 W2 H Hb E1 E2. set (M := 4294967295). assert (HM : M < 2 ^ 32) by reflexivity.
  destruct (alike_resize m t1 t2 M W1 W2 H HM) as (X1 & X2 & K).
  assert (F : forall t, wf t -> fit M (inner t) = inner t).
  { intros t (_ & A & B). apply fit_all. change (2 ^ 32) with 4294967296 in B. unfold M. lia. }
  set (a := conc (resize (abs t1) M)) in *. set (b := conc (resize (abs t2) M)) in *.
  assert (Ia : inner a = inner t1) by (apply F; exact W1). assert (Ib : inner b = inner t2) by (apply F; exact W2).
  assert (Ma : dmax a = M) by reflexivity. assert (Mb : dmax b = M) by reflexivity. clearbody a b.
  assert (Hn : N.of_nat (List.length n1) + 32 <= M).
  { assert (P : line_size (n1, w1) <= size (inner t1)).
    { destruct (nth_error_split _ _ E1) as (p & q & -> & _). rewrite size_app. cbn [size]. lia. }
    destruct W1 as (_ & A & B). change (2 ^ 32) with 4294967296 in B. unfold line_size in P. cbn [fst] in P. unfold M. lia. }
  destruct (new_value n1 M Hn) as (v & Bv & Nv & Lv & Sv); [unfold M; lia|].
  set (idx := 62 + N.of_nat i).
  assert (L1 : lookup (inner a) idx = Some (n1, w1)) by (unfold idx; now rewrite lookup_dynamic, Nat2N.id, Ia).
  assert (L2 : lookup (inner b) idx = Some (n2, w2)) by (unfold idx; now rewrite lookup_dynamic, Nat2N.id, Ib).
  pose proof (lookup_index_small a idx _ X1 L1) as Hidx.
  assert (Ho : op_typed (Send (IndexedName idx v 4))).
  { refine (conj _ (conj Bv _)); [change (2 ^ 28) with 268435456 in Hidx; change (2 ^ 32) with 4294967296; lia|reflexivity]. }
  destruct (alike_add m a b (IndexedName idx v 4) n1 n2 v false (NameIndex idx) X1 X2 K Ho) as (Y1 & Y2 & K2).
  - exact (ch_indexed_name (inner a) idx v 4 _ L1).
  - exact (ch_indexed_name (inner b) idx v 4 _ L2).
  - cbn [strings_within coded_length]. split; [|exact Logic.I]. unfold U32_MAX. lia.
  - cbn [resolve]. change (entries (abs a)) with (inner a). now rewrite L1.
  - cbn [resolve]. change (entries (abs b)) with (inner b). now rewrite L2.
  - assert (G : lookup (inner (conc (insert (abs b) (n2, v)))) 62 = Some (n1, v)).
    { apply (found_alike m _ _ n1 v 62 Y1 Y2 K2 Hb Bv). split.
      - change 62 with (62 + 0). rewrite lookup_dynamic. cbn [inner conc insert abs entries max_size]. rewrite Ma. cbn [fit].
        rewrite (proj2 (N.leb_le _ _) Lv). reflexivity.
      - intros j Hj Ej. pose proof (lookup_bound _ _ _ Ej). rewrite lookup_static in Ej by lia. apply Nv. exact (nth_error_In _ _ Ej). }
    change 62 with (62 + 0) in G. rewrite lookup_dynamic in G. cbn [inner conc insert abs entries max_size] in G. rewrite Mb in G. cbn [fit] in G.
    destruct (line_size (n2, v) <=? M); cbn in G; [|discriminate G]. injection G as ->. reflexivity.
Qed.
Lemma unseen_found l i n v : nth_error l i = Some (n, v) -> ~ In (n, v) (rfc_static ++ firstn i l) ->
  find_spec (lookup l) n v (Some (62 + N.of_nat i, true)).
Proof.
  intros E Hno. split; [now rewrite lookup_dynamic, Nat2N.id|]. intros j Hj Ej. apply Hno. apply in_or_app.
  pose proof (lookup_bound _ _ _ Ej). destruct (N.le_gt_cases j 61) as [L|L].
  - left. rewrite lookup_static in Ej by lia. exact (nth_error_In _ _ Ej).
  - right. replace j with (62 + (j - 62)) in Ej by lia. rewrite lookup_dynamic in Ej.
    apply (nth_error_In _ (N.to_nat (j - 62))). rewrite nth_firstn by lia. exact Ej.
Qed.
Lemma alike_value m t1 t2 i e : wf t1 -> wf t2 -> enc_alike m t1 t2 -> octet_line e -> nth_error (inner t1) i = Some e ->
  nth_error (inner t2) i <> Some e -> repeated (inner t1) i.
Proof.
  intros W1 W2 H [Bn Bv] E Hne. destruct e as [n v]. exists (n, v). split; [exact E|].
  destruct (in_dec line_eq_dec (n, v) (rfc_static ++ firstn i (inner t1))) as [|Hno]; [assumption|exfalso].
  pose proof (found_alike m t1 t2 n v _ W1 W2 H Bn Bv (unseen_found _ i n v E Hno)) as G. rewrite lookup_dynamic, Nat2N.id in G. exact (Hne G).
Qed.
Lemma repeat_bytes' x n : is_byte x -> bytes (repeat x n).
Proof. intros H. induction n; cbn [repeat]; constructor; assumption. Qed.
Lemma enc_alike_max m t1 t2 : wf t1 -> wf t2 -> enc_alike m t1 t2 -> dmax t1 < dmax t2 -> dmax t2 < 32.
Proof.
  intros W1 W2 H Hlt. destruct (N.lt_ge_cases (dmax t2) 32) as [|Hge]; [assumption|exfalso].
  assert (Hm : dmax t2 < 4294967296) by apply W2.
  assert (X : exists n, bytes n /\ N.of_nat (List.length n) = dmax t2 - 32).
  { exists (repeat 0 (N.to_nat (dmax t2 - 32))). split; [now apply repeat_bytes'|]. rewrite repeat_length. lia. }
  destruct X as (n & Bn & Ln).
  assert (Ho : op_typed (Send (Literal n [] 4))) by (refine (conj Bn (conj _ _)); [constructor|reflexivity]).
  destruct (alike_add m t1 t2 (Literal n [] 4) n n [] false (NameLiteral false n) W1 W2 H Ho) as (Y1 & Y2 & K2).
  - exact (ch_literal (inner t1) n [] 4 eq_refl).
  - exact (ch_literal (inner t2) n [] 4 eq_refl).
  - cbn [strings_within coded_length List.length]. rewrite Ln. unfold U32_MAX. lia.
  - reflexivity.
  - reflexivity.
  - pose proof (alike_le m _ _ Y2 Y1 (enc_alike_sym _ _ _ K2)) as L. cbn [inner conc insert abs entries max_size fit] in L.
    assert (S : line_size (n, []) = dmax t2) by (unfold line_size; cbn [fst snd List.length]; lia). rewrite S in L.
    rewrite N.leb_refl in L. rewrite (proj2 (N.leb_gt _ _) Hlt) in L. cbn [List.length] in L. lia.
Qed.

Theorem enc_alike_iff m t1 t2 : wf t1 -> wf t2 -> Forall octet_line (inner t1) -> Forall octet_line (inner t2) ->
  (enc_alike m t1 t2 <-> enc_same t1 t2).
Proof.
  intros W1 W2 O1 O2. split; [|now apply enc_same_alike]. intros H. pose proof (enc_alike_sym _ _ _ H) as H'.
  assert (L : List.length (inner t1) = List.length (inner t2)) by (apply Nat.le_antisymm; now apply (alike_le m)).
  assert (At1 : forall i e, nth_error (inner t1) i = Some e -> octet_line e) by (intros i e E; exact (proj1 (Forall_forall _ _) O1 e (nth_error_In _ _ E))).
  assert (At2 : forall i e, nth_error (inner t2) i = Some e -> octet_line e) by (intros i e E; exact (proj1 (Forall_forall _ _) O2 e (nth_error_In _ _ E))).
  assert (Both : forall i, (exists e1 e2, nth_error (inner t1) i = Some e1 /\ nth_error (inner t2) i = Some e2) \/
    nth_error (inner t1) i = None /\ nth_error (inner t2) i = None).
  { intros i. destruct (nth_error (inner t1) i) as [e1|] eqn:E1, (nth_error (inner t2) i) as [e2|] eqn:E2; [left; eauto| | |now right].
    - apply nth_error_None in E2. assert (N1 : nth_error (inner t1) i <> None) by congruence. apply nth_error_Some in N1. lia.
    - apply nth_error_None in E1. assert (N2 : nth_error (inner t2) i <> None) by congruence. apply nth_error_Some in N2. lia. }
  split; [split; [|split]|].
  - apply nth_error_ext. intros i. destruct (Both i) as [([n1 w1] & [n2 w2] & E1 & E2)|[E1 E2]].
    + rewrite (map_nth_error fst _ _ E1), (map_nth_error fst _ _ E2). cbn [fst]. f_equal.
      exact (alike_names m t1 t2 i n1 w1 n2 w2 W1 W2 H (proj1 (At1 _ _ E1)) E1 E2).
    + apply nth_error_None in E1, E2. rewrite !(proj2 (nth_error_None _ _)); rewrite ?map_length; auto.
  - apply sizes_of_rooms; [exact L|]. intros k. apply N.le_antisymm; now apply (alike_room m).
  - intros i. destruct (Both i) as [(e1 & e2 & E1 & E2)|[E1 E2]]; [|left; congruence].
    destruct (line_eq_dec e1 e2) as [->|D]; [left; congruence|right]. split.
    + apply (alike_value m t1 t2 i e1 W1 W2 H (At1 _ _ E1) E1). congruence.
    + apply (alike_value m t2 t1 i e2 W2 W1 H' (At2 _ _ E2) E2). congruence.
  - pose proof (enc_alike_max m t1 t2 W1 W2 H). pose proof (enc_alike_max m t2 t1 W2 W1 H'). lia.
Qed.

(* Entries of a table filled through calls are octet strings. *)
Lemma fit_octets max l : Forall octet_line l -> Forall octet_line (fit max l).
Proof. intros H. destruct (fit_prefix max l) as [r E]. rewrite E in H. now apply Forall_app in H. Qed.
Lemma lookup_octets l i e : Forall octet_line l -> lookup l i = Some e -> octet_line e.
Proof.
  intros H E. pose proof (lookup_bound _ _ _ E). destruct (N.le_gt_cases i 61) as [L|L].
  - rewrite lookup_static in E by lia.
    assert (F : forallb (fun x => forallb (fun o => o <? 256) (fst x) && forallb (fun o => o <? 256) (snd x)) rfc_static = true) by (vm_compute; reflexivity).
    rewrite forallb_forall in F. specialize (F e (nth_error_In _ _ E)). apply andb_true_iff in F. destruct F as [F1 F2].
    rewrite forallb_forall in F1, F2. split; apply Forall_forall; intros x Hx; apply N.ltb_lt; [now apply F1|now apply F2].
  - replace i with (62 + (i - 62)) in E by lia. rewrite lookup_dynamic in E. exact (proj1 (Forall_forall _ _) H e (nth_error_In _ _ E)).
Qed.
Lemma interp_octets limit d r d' hs : Forall octet_line (entries d) -> interp limit d r = inl (d', hs) ->
  (match r with RLiteral _ (NameLiteral _ n) _ v => bytes n /\ bytes v | RLiteral _ _ _ v => bytes v | _ => True end) -> Forall octet_line (entries d').
Proof.
  intros H E B. destruct r as [i|k nr h v|n]; cbn [interp] in E.
  - destruct (lookup (entries d) i) as [[n v]|]; [|discriminate]. now injection E as <- _.
  - destruct (resolve d nr) as [n|] eqn:R; [|discriminate]. injection E as <- _. destruct k; try exact H.
    cbn [insert entries]. apply fit_octets. constructor; [|exact H]. destruct nr as [i|hn s]; cbn [resolve] in R.
    + destruct (lookup (entries d) i) as [e|] eqn:Li; [|discriminate]. injection R as <-. split; [apply (lookup_octets _ _ _ H Li)|exact B].
    + injection R as <-. exact B.
  - destruct (n <=? limit); [|discriminate]. injection E as <- _. cbn [resize entries]. now apply fit_octets.
Qed.
Lemma op_step_octets m t o dst : wf t -> op_typed o -> Forall octet_line (inner t) -> Forall octet_line (inner (fst (fst (op_step m t dst o)))).
Proof.
  intros W Ho H. destruct o as [f|n]; cbn [op_step op_typed] in *.
  - assert (C : forall r, chosen (inner t) f r ->
      match r with RLiteral _ (NameLiteral _ n) _ v => bytes n /\ bytes v | RLiteral _ _ _ v => bytes v | _ => True end).
    { intros r Hr. destruct Hr as [i e He|i v fl e He|n v fl Hb|n v fl found Hb Hfind]; cbn [input_ok] in Ho.
      - exact Logic.I.
      - apply Ho.
      - split; apply Ho.
      - destruct found as [[i []]|]; [exact Logic.I|apply Ho|split; apply Ho]. }
    destruct (hencode_cases m t f dst W Ho) as [[_ ->]|(r & Hr & [[_ X]|[_ X]])]; [exact H| |].
    + destruct X as (bs & d' & hs & -> & I0 & _). cbn [fst]. exact (interp_octets 0 (abs t) r d' hs H (I0 0) (C r Hr)).
    + destruct X as (d' & hs & j & -> & _ & I0 & _). cbn [fst]. exact (interp_octets 0 (abs t) r d' hs H (I0 0) (C r Hr)).
  - destruct (encoder_update_ok m t n dst W Ho) as (bs & -> & _). cbn [fst inner conc resize entries]. now apply fit_octets.
Qed.
Theorem run_ops_octets m ops : forall t dst, wf t -> Forall op_typed ops -> Forall octet_line (inner t) ->
  Forall octet_line (inner (fst (fst (run_ops m t dst ops)))).
Proof.
  induction ops as [|o ops IH]; intros t dst W Ho H; [exact H|]. inversion Ho as [|? ? O1 O2]; subst. rewrite run_ops_cons.
  pose proof (op_step_octets m t o dst W O1 H) as H1. pose proof (op_step_wf m t o dst W O1) as W1.
  destruct (op_step m t dst o) as [[t' dst'] r]. cbn [fst] in H1, W1. specialize (IH t' dst' W1 O2 H1).
  destruct (run_ops m t' dst' ops) as [[t'' dst''] rs]. exact IH.
Qed.
