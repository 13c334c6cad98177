(* What can be learned about a stored field by sending others next to it (C121). *)
From Verif Require Import Base HuffTables HuffModel HuffSpec HuffCode Leb HpackStatic HpackModel
  HpackSpec HpackApi HpackInt HpackStr HpackTab HpackDec HpackEnc HpackDerived HpackMore HpackLength HpackTrust HpackLoss HpackReach HpackUnambig.
Open Scope list_scope.
Open Scope N_scope.

(* ------------------------------------------------------------------ *)
(* Specification vocabulary. *)

(* The calls ask the best-format search (flag 0x10) for this field. *)
Definition probes (ops : list op) (e : field_line) : Prop :=
  exists fl, In (Send (Literal (fst e) (snd e) fl)) ops /\ N.testbit fl 4 = true.
(* Entries with the same name and as long values, which are equal unless neither is asked for. *)
Definition blurred (asked : field_line -> Prop) (e e' : field_line) : Prop :=
  fst e = fst e' /\ List.length (snd e) = List.length (snd e') /\ (e = e' \/ ~ asked e /\ ~ asked e').
(* Two tables that differ in such entries only. *)
Definition indistinct (asked : field_line -> Prop) (t t' : table) : Prop :=
  dmax t = dmax t' /\ Forall2 (blurred asked) (inner t) (inner t').
(* i is the first index of the field. *)
Definition first_at (t : table) (e : field_line) (i : N) : Prop :=
  table_get t i = Some e /\ forall j, j < i -> table_get t j <> Some e.

(* ------------------------------------------------------------------ *)
Section Blind.
Context (asked : field_line -> Prop).
Notation rel := (indistinct asked).
Definition near (t t' : table) : Prop := wf t /\ wf t' /\ rel t t'.
Definition alike_step {A} (x y : enc_state * outcome enc_error A) : Prop :=
  near (fst (fst x)) (fst (fst y)) /\ snd (fst x) = snd (fst y) /\ snd x = snd y.

Lemma alike_binds {A B} (x y : enc_state * outcome enc_error A) (k k' : enc_state -> A -> enc_state * outcome enc_error B) :
  alike_step x y -> (forall t t' s a, near t t' -> alike_step (k (t, s) a) (k' (t', s) a)) -> alike_step (binds x k) (binds y k').
Proof.
  destruct x as [[t s] v], y as [[t' s'] v']. intros (R & E1 & E2) H. cbn [fst snd] in R, E1, E2. subst s' v'.
  destruct v; cbn [binds]; [now apply H|repeat (split; try assumption)..].
Qed.
Lemma alike_with {A} t t' (x : list N * outcome enc_error A) : near t t' -> alike_step (with_table t x) (with_table t' x).
Proof. destruct x. intros H. split; [exact H|split; reflexivity]. Qed.
Lemma alike_strings m n h v h2 (x y : enc_state * outcome enc_error unit) : alike_step x y ->
  alike_step (binds x (fun td _ => binds (with_table (fst td) (encode_string m n h (snd td)))
                         (fun td' _ => with_table (fst td') (encode_string m v h2 (snd td')))))
             (binds y (fun td _ => binds (with_table (fst td) (encode_string m n h (snd td)))
                         (fun td' _ => with_table (fst td') (encode_string m v h2 (snd td'))))).
Proof.
  intros H. apply alike_binds; [exact H|]. intros t t' s _ R. cbn [fst snd]. apply alike_binds; [now apply alike_with|].
  intros u u' s' _ R'. cbn [fst snd]. now apply alike_with.
Qed.
Lemma alike_string m v h (x y : enc_state * outcome enc_error unit) : alike_step x y ->
  alike_step (binds x (fun td _ => with_table (fst td) (encode_string m v h (snd td))))
             (binds y (fun td _ => with_table (fst td) (encode_string m v h (snd td)))).
Proof. intros H. apply alike_binds; [exact H|]. intros t t' s _ R. cbn [fst snd]. now apply alike_with. Qed.

Lemma blurred_size e e' : blurred asked e e' -> line_size e = line_size e'.
Proof. intros (E1 & E2 & _). unfold line_size. now rewrite E1, E2. Qed.
Lemma blurred_refl e : blurred asked e e.
Proof. repeat split. now left. Qed.
Lemma fit_blurred l l' : Forall2 (blurred asked) l l' -> forall max, Forall2 (blurred asked) (fit max l) (fit max l').
Proof.
  induction 1 as [|e e' l l' H _ IH]; intros max; [constructor|]. cbn [fit]. rewrite (blurred_size _ _ H).
  destruct (line_size e' <=? max); [constructor; [exact H|apply IH]|constructor].
Qed.
Lemma near_insert t t' e : near t t' -> near (conc (insert (abs t) e)) (conc (insert (abs t') e)).
Proof.
  intros ((A & B & C) & (A' & B' & C') & M & F). split; [|split; [|split]].
  - apply wf_conc_fit. exact C.
  - apply wf_conc_fit. exact C'.
  - exact M.
  - cbn [conc insert inner abs entries max_size]. rewrite M. apply fit_blurred. constructor; [apply blurred_refl|exact F].
Qed.
Lemma near_resize t t' n : n < 2 ^ 32 -> near t t' -> near (conc (resize (abs t) n)) (conc (resize (abs t') n)).
Proof.
  intros Hn (W & W' & M & F). split; [|split; [|split]].
  - now apply wf_conc_fit.
  - now apply wf_conc_fit.
  - reflexivity.
  - cbn [conc resize inner abs entries max_size]. now apply fit_blurred.
Qed.

Lemma nth_blurred l l' : Forall2 (blurred asked) l l' -> forall k,
  match nth_error l k, nth_error l' k with Some e, Some e' => blurred asked e e' | None, None => True | _, _ => False end.
Proof. induction 1 as [|e e' l l' H _ IH]; intros [|k]; cbn [nth_error]; [exact Logic.I|exact Logic.I|exact H|apply IH]. Qed.
Lemma lookup_blurred t t' i : rel t t' ->
  match lookup (inner t) i, lookup (inner t') i with Some e, Some e' => blurred asked e e' | None, None => True | _, _ => False end.
Proof.
  intros [_ F]. destruct (N.le_gt_cases i 61) as [H|H].
  - rewrite (HpackLoss.static_same t t' i H). destruct (lookup (inner t') i); [apply blurred_refl|exact Logic.I].
  - replace i with (62 + N.of_nat (N.to_nat (i - 62))) by lia. rewrite !lookup_dynamic. apply nth_blurred. exact F.
Qed.
Lemma lookup_asked t t' i e : rel t t' -> asked e -> lookup (inner t) i = Some e <-> lookup (inner t') i = Some e.
Proof.
  intros R Q. pose proof (lookup_blurred t t' i R) as L. destruct (lookup (inner t) i) as [a|], (lookup (inner t') i) as [b|]; try contradiction;
    [|split; discriminate]. destruct L as (_ & _ & [->|[N1 N2]]); [reflexivity|]. split; intros [= ->]; contradiction.
Qed.
Lemma lookup_name t t' i n : rel t t' -> (exists v, lookup (inner t) i = Some (n, v)) <-> (exists v, lookup (inner t') i = Some (n, v)).
Proof.
  intros R. pose proof (lookup_blurred t t' i R) as L. destruct (lookup (inner t) i) as [[a b]|], (lookup (inner t') i) as [[a' b']|]; try contradiction;
    [|split; intros [v [=]]]. destruct L as (E & _). cbn [fst] in E. subst a'. split; intros [v [= -> ->]]; eauto.
Qed.
Lemma find_blurred t t' n v r : rel t t' -> asked (n, v) -> find_spec (lookup (inner t)) n v r -> find_spec (lookup (inner t')) n v r.
Proof.
  intros R Q. pose proof (fun j => lookup_asked t t' j (n, v) R Q) as LA. pose proof (fun j => lookup_name t t' j n R) as LN.
  destruct r as [[i []]|]; cbn [find_spec].
  - intros [H1 H2]. split; [now apply LA|]. intros j Hj E. apply (H2 j Hj). now apply LA.
  - intros (H1 & H2 & H3). split; [now apply LN|]. split.
    + intros j w Hj E. destruct (proj2 (LN j)) as [w' E']; [eauto|]. exact (H2 j w' Hj E').
    + intros j E. apply (H3 j). now apply LA.
  - intros H j w E. destruct (proj2 (LN j)) as [w' E']; [eauto|]. exact (H j w' E').
Qed.

Lemma alike_indexed t t' i dst : near t t' -> alike_step (encode_indexed t i dst) (encode_indexed t' i dst).
Proof.
  intros R. unfold encode_indexed. rewrite !get_lookup. pose proof (lookup_blurred t t' i (proj2 (proj2 R))) as L.
  destruct (lookup (inner t) i), (lookup (inner t') i); try contradiction; [now apply alike_with|]. split; [exact R|split; reflexivity].
Qed.
Lemma alike_indexed_name m t t' i v fl dst : near t t' ->
  alike_step (encode_indexed_name m t i v fl dst) (encode_indexed_name m t' i v fl dst).
Proof.
  intros R. unfold encode_indexed_name. rewrite !get_lookup. pose proof (lookup_blurred t t' i (proj2 (proj2 R))) as L.
  destruct (lookup (inner t) i) as [[a b]|], (lookup (inner t') i) as [[a' b']|]; try contradiction; [|split; [exact R|split; reflexivity]].
  destruct L as (E & _). cbn [fst] in E. subst a'. cbv zeta. cbn [fst]. apply alike_string.
  destruct (has_flag fl 4); [|destruct (has_flag fl 8); now apply alike_with].
  destruct (@table_insert_ok enc_error m t a v (proj1 R)) as [-> _].
  destruct (@table_insert_ok enc_error m t' a v (proj1 (proj2 R))) as [-> _]. cbn [bindd]. apply alike_with. now apply near_insert.
Qed.
Lemma alike_literal m t t' n v fl dst : near t t' ->
  alike_step (encode_literal m t n v fl dst) (encode_literal m t' n v fl dst).
Proof.
  intros R. unfold encode_literal. apply alike_strings.
  destruct (has_flag fl 4); [|destruct (has_flag fl 8); (split; [exact R|split; reflexivity])].
  destruct (@table_insert_ok enc_error m t n v (proj1 R)) as [-> _].
  destruct (@table_insert_ok enc_error m t' n v (proj1 (proj2 R))) as [-> _]. split; [now apply near_insert|split; reflexivity].
Qed.
Lemma blind_step m t t' o dst : near t t' -> op_typed o ->
  (forall n v fl, o = Send (Literal n v fl) -> N.testbit fl 4 = true -> asked (n, v)) ->
  alike_step (op_step m t dst o) (op_step m t' dst o).
Proof.
  intros R T Q. destruct o as [[i|i v fl|n v fl]|n]; cbn [op_step op_typed hencode] in *.
  - now apply alike_indexed.
  - now apply alike_indexed_name.
  - destruct T as (_ & _ & T). destruct (has_flag_bits fl T) as (_ & _ & _ & _ & ->). destruct (N.testbit fl 4) eqn:F; [|now apply alike_literal].
    destruct (@table_find_ok enc_error m t n v (proj1 R)) as (r & -> & Hr).
    destruct (@table_find_ok enc_error m t' n v (proj1 (proj2 R))) as (r' & -> & Hr').
    assert (r' = r) as ->.
    { eapply find_spec_unique; [|exact Hr'|]; [reflexivity|]. exact (find_blurred t t' n v r (proj2 (proj2 R)) (Q _ _ _ eq_refl F) Hr). }
    cbn [bindd]. destruct r as [[i []]|]; [now apply alike_indexed|now apply alike_indexed_name|now apply alike_literal].
  - unfold encoder_update_max. destruct (@table_update_ok enc_error m t n (proj1 R) T) as [-> _].
    destruct (@table_update_ok enc_error m t' n (proj1 (proj2 R)) T) as [-> _]. cbn [bindd]. apply alike_with. now apply near_resize.
Qed.
Lemma blind_run m ops : forall t t' dst, near t t' -> Forall op_typed ops -> (forall e, probes ops e -> asked e) ->
  snd (fst (run_ops m t dst ops)) = snd (fst (run_ops m t' dst ops)) /\ snd (run_ops m t dst ops) = snd (run_ops m t' dst ops) /\
  near (fst (fst (run_ops m t dst ops))) (fst (fst (run_ops m t' dst ops))).
Proof.
  induction ops as [|o ops IH]; intros t t' dst R T Q; [repeat (split; [reflexivity|]); exact R|]. inversion T as [|? ? T1 T2]; subst.
  destruct (blind_step m t t' o dst R T1) as (R1 & E1 & E2).
  { intros n v fl -> F. apply Q. exists fl. split; [now left|exact F]. }
  rewrite !run_ops_cons. destruct (op_step m t dst o) as [[ta da] ra]. destruct (op_step m t' dst o) as [[tb db] rb]. cbn [fst snd] in R1, E1, E2. subst db rb.
  destruct (IH ta tb da R1 T2) as (I1 & I2 & I3). { intros e (fl & H & F). apply Q. exists fl. split; [now right|exact F]. }
  destruct (run_ops m ta da ops) as [[? ?] ?], (run_ops m tb da ops) as [[? ?] ?]. cbn [fst snd] in *. now subst.
Qed.
End Blind.

Theorem blind m ops t t' dst : wf t -> wf t' -> Forall op_typed ops -> indistinct (probes ops) t t' ->
  snd (fst (run_ops m t dst ops)) = snd (fst (run_ops m t' dst ops)) /\ snd (run_ops m t dst ops) = snd (run_ops m t' dst ops) /\
  indistinct (probes ops) (fst (fst (run_ops m t dst ops))) (fst (fst (run_ops m t' dst ops))).
Proof.
  intros W W' T R. destruct (blind_run (probes ops) m ops t t' dst (conj W (conj W' R)) T ltac:(auto)) as (E1 & E2 & _ & _ & E3). auto.
Qed.

(* ------------------------------------------------------------------ *)
(* What one guess shows. *)
Lemma guess_written m t n v fl : wf t -> input_ok (Literal n v fl) -> sendable (Literal n v fl) -> N.testbit fl 4 = true ->
  exists found r, find_spec (lookup (inner t)) n v found /\ chosen (inner t) (Literal n v fl) r /\
    r = match found with
        | Some (i, true) => RIndexed i
        | Some (i, false) => RLiteral (kind_of fl) (NameIndex i) (N.testbit fl 1) v
        | None => RLiteral (kind_of fl) (NameLiteral (N.testbit fl 0) n) (N.testbit fl 1) v
        end /\
    repr_wire 6 rfc_padding (written m t [Send (Literal n v fl)]) r /\ bytes (written m t [Send (Literal n v fl)]) /\
    N.of_nat (List.length (written m t [Send (Literal n v fl)])) = repr_octets r.
Proof.
  intros W Hi Hs Hf. destruct (@table_find_ok enc_error m t n v W) as (found & _ & Hr).
  pose proof (ch_best (inner t) n v fl found Hf Hr) as Hc. eexists found, _. split; [exact Hr|]. split; [exact Hc|]. split; [reflexivity|].
  pose proof (within_mono _ _ _ max_string_u32 (sendable_within _ _ _ Hc Hs)) as Hw.
  destruct (hencode_ok m t _ [] _ W Hi Hc Hw) as (bs & d' & hs & E & _ & _ & H6 & _ & Hb).
  pose proof (hencode_octets m t _ [] _ bs _ W Hi Hc Hw E) as Lo.
  assert (Ew : written m t [Send (Literal n v fl)] = bs).
  { unfold written. cbn [run_ops]. rewrite E. reflexivity. }
  rewrite Ew. auto.
Qed.
Lemma first_found t n v found i : find_spec (lookup (inner t)) n v found -> (first_at t (n, v) i <-> found = Some (i, true)).
Proof.
  intros Hf. unfold first_at. split.
  - intros [E M]. rewrite get_lookup in E. assert (F : find_spec (lookup (inner t)) n v (Some (i, true))).
    { split; [exact E|]. intros j Hj. rewrite <- get_lookup. now apply M. }
    symmetry. eapply find_spec_unique; [|exact F|exact Hf]. reflexivity.
  - intros ->. destruct Hf as [E M]. rewrite get_lookup. split; [exact E|]. intros j Hj. rewrite get_lookup. now apply M.
Qed.

Theorem guess_iff m t t' n v fl : wf t -> wf t' -> indistinct (fun _ => False) t t' ->
  input_ok (Literal n v fl) -> sendable (Literal n v fl) -> N.testbit fl 4 = true ->
  (written m t [Send (Literal n v fl)] = written m t' [Send (Literal n v fl)] <->
   forall i, first_at t (n, v) i <-> first_at t' (n, v) i).
Proof.
  intros W W' R Hi Hs Hf.
  destruct (guess_written m t n v fl W Hi Hs Hf) as (f1 & r1 & F1 & _ & E1 & H1 & B1 & _).
  destruct (guess_written m t' n v fl W' Hi Hs Hf) as (f2 & r2 & F2 & _ & E2 & H2 & B2 & _). split.
  - intros E i. rewrite (first_found t n v f1 i F1), (first_found t' n v f2 i F2). rewrite <- E in H2.
    destruct (repr_wire_unique_at 6 6 rfc_padding _ _ [] _ _ [] H1 H2) as (_ & Er & _); [now rewrite app_nil_r|reflexivity|].
    subst r1 r2. destruct f1 as [[i1 []]|], f2 as [[i2 []]|]; try discriminate Er; try (split; discriminate).
    injection Er as ->. reflexivity.
  - intros H. assert (G : find_spec (lookup (inner t')) n v f1).
    { destruct f1 as [[i []]|].
      - destruct (proj2 (first_found t n v _ i F1) eq_refl) as [A B].
        assert (X : first_at t' (n, v) i) by (apply H; split; assumption). apply (first_found t' n v f2 i F2) in X. subst f2. exact F2.
      - destruct f2 as [[i2 []]|].
        + assert (X : first_at t (n, v) i2) by (apply H; now apply (first_found t' n v _ i2 F2)).
          apply (first_found t n v _ i2 F1) in X. discriminate X.
        + destruct F1 as (A & B & C), F2 as (A2 & B2' & C2). split; [now apply (lookup_name _ t t' i n R)|]. split; [|exact C2].
          intros j w Hj E. destruct (proj2 (lookup_name _ t t' j n R)) as [w' E']; [eauto|]. exact (B j w' Hj E').
        + destruct F1 as (A & _). apply (lookup_name _ t t' i n R) in A as [w A]. now destruct (F2 i w).
      - intros j w E. destruct (proj2 (lookup_name _ t t' j n R)) as [w' E']; [eauto|]. exact (F1 j w' E'). }
    assert (f2 = f1) as -> by (eapply find_spec_unique; [|exact F2|exact G]; reflexivity).
    unfold written. cbn [run_ops hencode]. destruct Hi as (_ & _ & Hfl). destruct (has_flag_bits fl Hfl) as (_ & _ & _ & _ & ->). rewrite Hf.
    destruct (@table_find_ok enc_error m t n v W) as (a & -> & Ha). destruct (@table_find_ok enc_error m t' n v W') as (b & -> & Hb).
    assert (a = f1) as -> by (eapply find_spec_unique; [|exact Ha|exact F1]; reflexivity).
    assert (b = f1) as -> by (eapply find_spec_unique; [|exact Hb|exact G]; reflexivity).
    cbn [bindd]. pose proof (conj W (conj W' R)) as K.
    assert (Z : forall x y : enc_state * outcome enc_error unit, alike_step (fun _ => False) x y ->
      snd (fst (let '(u, out, o) := x in let '(t2, out2, rs) := (u, out, []) in (t2, out2, o :: rs))) =
      snd (fst (let '(u, out, o) := y in let '(t2, out2, rs) := (u, out, []) in (t2, out2, o :: rs)))).
    { intros [[? ?] ?] [[? ?] ?] (_ & E & _). exact E. }
    destruct f1 as [[i []]|].
    + exact (Z _ _ (alike_indexed _ t t' (wrap 32 i) [] K)).
    + exact (Z _ _ (alike_indexed_name _ m t t' (wrap 32 i) v fl [] K)).
    + exact (Z _ _ (alike_literal _ m t t' n v fl [] K)).
Qed.

Theorem guess_length m t n v fl : wf t -> input_ok (Literal n v fl) -> sendable (Literal n v fl) -> N.testbit fl 4 = true ->
  (List.length (written m t [Send (Literal n v fl)]) = 1%nat <-> exists i, i < 127 /\ first_at t (n, v) i).
Proof.
  intros W Hi Hs Hf. destruct (guess_written m t n v fl W Hi Hs Hf) as (f1 & r1 & F1 & _ & E1 & _ & _ & L).
  assert (A : List.length (written m t [Send (Literal n v fl)]) = 1%nat <-> repr_octets r1 = 1) by (split; lia). rewrite A. subst r1.
  destruct f1 as [[i []]|].
  - cbn [repr_octets]. unfold int_octets. change (2 ^ 7 - 1) with 127. split.
    + intros E. exists i. split; [|now apply (first_found t n v _ i F1)]. destruct (N.ltb_spec i 127); lia.
    + intros (j & Hj & X). apply (first_found t n v _ j F1) in X. injection X as ->. destruct (N.ltb_spec j 127); lia.
  - split.
    + intros E. exfalso. cbn [repr_octets] in E. unfold string_octets in E.
      pose proof (int_octets_pos (kind_prefix (kind_of fl)) i). pose proof (int_octets_pos 7 (coded_length (N.testbit fl 1) v)). lia.
    + intros (j & _ & X). apply (first_found t n v _ j F1) in X. discriminate X.
  - split.
    + intros E. exfalso. cbn [repr_octets] in E. unfold string_octets in E.
      pose proof (int_octets_pos 7 (coded_length (N.testbit fl 0) n)). pose proof (int_octets_pos 7 (coded_length (N.testbit fl 1) v)). lia.
    + intros (j & _ & X). apply (first_found t n v _ j F1) in X. discriminate X.
Qed.

(* How such tables come about: storing one value or another. *)
Theorem stored_blur asked m t n v v' fl : wf t -> input_ok (Literal n v fl) -> input_ok (Literal n v' fl) ->
  sendable (Literal n v fl) -> sendable (Literal n v' fl) ->
  N.testbit fl 1 = false -> N.testbit fl 4 = false -> List.length v = List.length v' -> ~ asked (n, v) -> ~ asked (n, v') ->
  List.length (written m t [Send (Literal n v fl)]) = List.length (written m t [Send (Literal n v' fl)]) /\
  indistinct asked (fst (fst (hencode m t (Literal n v fl) []))) (fst (fst (hencode m t (Literal n v' fl) []))).
Proof.
  intros W Hi Hi' Hs Hs' H1 H4 El A A'. split.
  - assert (G : forall v, input_ok (Literal n v fl) -> sendable (Literal n v fl) ->
      N.of_nat (List.length (written m t [Send (Literal n v fl)])) = 1 + string_octets (N.testbit fl 0) n + string_octets (N.testbit fl 1) v).
    { clear - W H4. intros v Hi Hs. pose proof (ch_literal (inner t) n v fl H4) as Hc.
      pose proof (within_mono _ _ _ max_string_u32 (sendable_within _ _ _ Hc Hs)) as Hw.
      destruct (hencode_ok m t _ [] _ W Hi Hc Hw) as (bs & d' & hs & E & _).
      pose proof (hencode_octets m t _ [] _ bs _ W Hi Hc Hw E) as Lo. unfold written. cbn [run_ops]. rewrite E. exact Lo. }
    pose proof (G v Hi Hs) as E. pose proof (G v' Hi' Hs') as E'. unfold string_octets, coded_length in E, E'. rewrite H1, El in E. rewrite H1 in E'. lia.
  - pose proof (HpackReach.op_step_table m t [] (Send (Literal n v fl)) W Hi) as X.
    pose proof (HpackReach.op_step_table m t [] (Send (Literal n v' fl)) W Hi') as X'. cbn [op_step op_meaning field_of flag_used] in X, X'.
    rewrite X, X', H4. cbn [andb].
    assert (R : Forall2 (blurred asked) (inner t) (inner t)) by (clear; induction (inner t); constructor; [apply blurred_refl|assumption]).
    destruct (kind_flag (kind_of fl) =? 4); cbn [fst]; (split; [reflexivity|]); cbn [conc inner insert abs entries max_size]; [|exact R].
    apply fit_blurred. constructor; [|exact R]. split; [reflexivity|]. split; [exact El|]. right. now split.
Qed.
