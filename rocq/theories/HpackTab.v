(* The indexing table (RFC 7541 sections 2.3 and 4). *)
From Verif Require Import Base HpackModel HpackSpec HpackApi.
Open Scope N_scope.

Lemma skipn_plus {A} a b (l : list A) : skipn (a + b) l = skipn a (skipn b l).
Proof.
  revert l. induction b as [|b IH]; intros l.
  - rewrite Nat.add_0_r. reflexivity.
  - rewrite Nat.add_succ_r. destruct l; [rewrite !skipn_nil; reflexivity|]. simpl. apply IH.
Qed.

Lemma line_size_eq e : entry_len e + 32 = line_size e.
Proof. reflexivity. Qed.

Lemma size_app a b : size (a ++ b) = size a + size b.
Proof. induction a as [|e a IH]; simpl; [reflexivity|]. rewrite IH. lia. Qed.

Lemma line_size_pos e : 32 <= line_size e.
Proof. unfold line_size. lia. Qed.

Lemma size_length l : 32 * N.of_nat (length l) <= size l.
Proof.
  induction l as [|e l IH]; simpl size; simpl length; [lia|]. pose proof (line_size_pos e). lia.
Qed.

Lemma fit_all max l : size l <= max -> fit max l = l.
Proof.
  revert max. induction l as [|e l IH]; intros max H; simpl in *; [reflexivity|].
  replace (line_size e <=? max) with true by (symmetry; apply N.leb_le; lia).
  rewrite IH by lia. reflexivity.
Qed.

Lemma fit_drop_last max l e : max < size (l ++ [e]) -> fit max (l ++ [e]) = fit max l.
Proof.
  revert max. induction l as [|x l IH]; intros max H; simpl in *.
  - replace (line_size e <=? max) with false by (symmetry; apply N.leb_gt; lia). reflexivity.
  - destruct (line_size x <=? max) eqn:E; [|reflexivity]. apply N.leb_le in E.
    rewrite IH by lia. reflexivity.
Qed.

Lemma fit_size max l : size (fit max l) <= max.
Proof.
  revert max. induction l as [|e l IH]; intros max; simpl; [lia|].
  destruct (line_size e <=? max) eqn:E; simpl; [|lia]. apply N.leb_le in E.
  specialize (IH (max - line_size e)). lia.
Qed.

Lemma fit_prefix max l : prefix (fit max l) l.
Proof.
  revert max. induction l as [|e l IH]; intros max; simpl; [exists []; reflexivity|].
  destruct (line_size e <=? max); [|apply prefix_nil].
  destruct (IH (max - line_size e)) as [r Hr]. exists r. rewrite Hr at 1. reflexivity.
Qed.

Lemma fit_fits max l : fits max l (fit max l).
Proof.
  split; [apply fit_prefix|split; [apply fit_size|]].
  intros k' [r ->]. revert max. induction k' as [|e k' IH]; intros max H; [simpl; lia|].
  simpl in *. replace (line_size e <=? max) with true by (symmetry; apply N.leb_le; lia).
  simpl. specialize (IH (max - line_size e)). lia.
Qed.

Lemma fits_unique max l k1 k2 : fits max l k1 -> fits max l k2 -> k1 = k2.
Proof.
  intros (P1 & S1 & M1) (P2 & S2 & M2).
  assert (L : length k1 = length k2).
  { apply Nat.le_antisymm; auto. }
  destruct P1 as [r1 E1], P2 as [r2 E2]. rewrite E1 in E2.
  apply app_inj_len in E2; tauto.
Qed.

Lemma consolidate_loop_ok {E} m : forall l max fuel, (length l < fuel)%nat ->
  @consolidate_loop E m fuel (mkDyn l (size l) max) = Ok (mkDyn (fit max l) (size (fit max l)) max).
Proof.
  intros l. induction l as [|e l IH] using rev_ind; intros max fuel Hf.
  - destruct fuel; [simpl in Hf; lia|]. simpl. replace (max <? 0) with false by (symmetry; apply N.ltb_ge; lia).
    reflexivity.
  - destruct fuel as [|fuel]; [lia|]. rewrite app_length in Hf. simpl in Hf.
    cbn [consolidate_loop dmax dsize inner].
    destruct (max <? size (l ++ [e])) eqn:E1.
    + apply N.ltb_lt in E1. rewrite rev_app_distr. cbn [rev app]. rewrite rev_involutive.
      rewrite line_size_eq, u_sub_ok by (rewrite size_app; simpl; lia). cbn [bind].
      replace (size (l ++ [e]) - line_size e) with (size l) by (rewrite size_app; simpl; lia).
      rewrite IH by lia. rewrite (fit_drop_last max l e E1). reflexivity.
    + apply N.ltb_ge in E1. rewrite (fit_all max (l ++ [e]) E1). reflexivity.
Qed.

Lemma consolidate_ok {E} m l max :
  @consolidate E m (mkDyn l (size l) max) = Ok (mkDyn (fit max l) (size (fit max l)) max).
Proof. apply consolidate_loop_ok. simpl. lia. Qed.

Lemma conc_abs t : wf t -> conc (abs t) = t.
Proof. destruct t. intros (H & _). unfold conc, abs. simpl in *. subst. reflexivity. Qed.

Lemma abs_conc d : abs (conc d) = d.
Proof. destruct d. reflexivity. Qed.

Lemma wf_conc_fit l max : max < 2 ^ 32 -> wf (conc (mkdyn (fit max l) max)).
Proof. intros H. unfold wf, conc. simpl. repeat split; auto. apply fit_size. Qed.

Lemma table_insert_ok {E} m t n v : wf t ->
  @table_insert E m t n v = Ok (conc (insert (abs t) (n, v))) /\ wf (conc (insert (abs t) (n, v))).
Proof.
  intros (H1 & H2 & H3). split; [|apply wf_conc_fit; exact H3].
  unfold table_insert, insert, conc, abs. cbn [entries max_size].
  rewrite H1, line_size_eq, N.add_comm. apply (consolidate_ok m ((n, v) :: inner t) (dmax t)).
Qed.

Lemma table_update_ok {E} m t n : wf t -> n < 2 ^ 32 ->
  @table_update_max E m t n = Ok (conc (resize (abs t) n)) /\ wf (conc (resize (abs t) n)).
Proof.
  intros (H1 & H2 & H3) Hn. split; [|apply wf_conc_fit; exact Hn].
  unfold table_update_max, resize, conc, abs. cbn [entries max_size].
  rewrite H1. apply consolidate_ok.
Qed.

Lemma wf_new max : max < 2 ^ 32 -> wf (table_with_size max).
Proof. intros H. unfold wf, table_with_size. simpl. repeat split; auto. lia. Qed.

Lemma wf_default : wf table_default.
Proof. apply wf_new. compute. reflexivity. Qed.

Lemma wf_length t : wf t -> N.of_nat (length (inner t)) <= 2 ^ 27.
Proof.
  intros (H1 & H2 & H3). pose proof (size_length (inner t)).
  change (2 ^ 32) with 4294967296 in *. change (2 ^ 27) with 134217728. lia.
Qed.

Lemma wf_dynamic_size t : wf t -> table_dynamic_size t = size (inner t).
Proof.
  intros (H1 & H2 & H3). unfold table_dynamic_size, wrap. rewrite H1. apply N.mod_small. lia.
Qed.

(* ------------------------------------------------------------------ *)
(* Address space *)

Lemma static_is_rfc : STATIC_TABLE = rfc_static.
Proof. vm_compute. reflexivity. Qed.

Lemma static_length : length STATIC_TABLE = 61%nat.
Proof. reflexivity. Qed.

Lemma get_lookup t i : table_get t i = lookup (inner t) i.
Proof.
  unfold table_get, lookup. destruct (i =? 0) eqn:E0; [reflexivity|]. apply N.eqb_neq in E0.
  rewrite <- static_is_rfc, static_length. change (N.of_nat 61) with 61.
  destruct (i - 1 <? 61) eqn:E.
  - apply N.ltb_lt in E. rewrite nth_error_app1; [reflexivity|]. rewrite static_length. lia.
  - apply N.ltb_ge in E. rewrite nth_error_app2 by (rewrite static_length; lia).
    rewrite static_length. f_equal. lia.
Qed.

Lemma lookup_bound l i e : lookup l i = Some e -> 1 <= i <= 61 + N.of_nat (length l).
Proof.
  unfold lookup. destruct (i =? 0) eqn:E0; [discriminate|]. apply N.eqb_neq in E0.
  intros H. assert (nth_error (rfc_static ++ l) (N.to_nat (i - 1)) <> None) as H' by congruence.
  apply nth_error_Some in H'. rewrite app_length in H'. change (length rfc_static) with 61%nat in H'. lia.
Qed.

Lemma lookup_None l i : lookup l i = None <-> i = 0 \/ 61 + N.of_nat (length l) < i.
Proof.
  unfold lookup. destruct (i =? 0) eqn:E0.
  - apply N.eqb_eq in E0. tauto.
  - apply N.eqb_neq in E0. rewrite nth_error_None, app_length.
    change (length rfc_static) with 61%nat. split; [intros; right; lia | intros [|]; lia].
Qed.

Lemma lookup_static l i : 1 <= i <= 61 -> lookup l i = nth_error rfc_static (N.to_nat (i - 1)).
Proof.
  intros H. unfold lookup. replace (i =? 0) with false by (symmetry; apply N.eqb_neq; lia).
  apply nth_error_app1. change (length rfc_static) with 61%nat. lia.
Qed.

Lemma lookup_dynamic l k : lookup l (62 + k) = nth_error l (N.to_nat k).
Proof.
  unfold lookup. replace (62 + k =? 0) with false by (symmetry; apply N.eqb_neq; lia).
  rewrite nth_error_app2; change (length rfc_static) with 61%nat; [f_equal; lia|lia].
Qed.

Lemma lookup_index_small t i e : wf t -> lookup (inner t) i = Some e -> i < 2 ^ 28.
Proof.
  intros Hw H. apply lookup_bound in H. apply wf_length in Hw.
  change (2 ^ 27) with 134217728 in *. change (2 ^ 28) with 268435456. lia.
Qed.

(* Iteration *)
Lemma iter_from_ok {E} m t : wf t -> forall l i, (1 <= i) ->
  skipn (N.to_nat (i - 1)) (rfc_static ++ inner t) = l -> i + N.of_nat (length l) < 2 ^ 32 - 1 ->
  forall fuel, (length l < fuel)%nat -> @iter_from E m fuel t i = Ok l.
Proof.
  intros Hw. induction l as [|e l IH]; intros i Hi Hs Hb fuel Hf; (destruct fuel as [|fuel]; [simpl in Hf; lia|]);
    cbn [iter_from]; rewrite u_add_ok by (simpl length in Hb; lia); cbn [bind]; rewrite get_lookup; unfold lookup;
    replace (i =? 0) with false by (symmetry; apply N.eqb_neq; lia).
  - replace (nth_error (rfc_static ++ inner t) (N.to_nat (i - 1))) with (@None field_line); [reflexivity|].
    symmetry. apply nth_error_None.
    assert (H : length (skipn (N.to_nat (i - 1)) (rfc_static ++ inner t)) = 0%nat) by (rewrite Hs; reflexivity).
    rewrite skipn_length in H. lia.
  - assert (Hn : nth_error (rfc_static ++ inner t) (N.to_nat (i - 1)) = Some e).
    { rewrite <- (firstn_skipn (N.to_nat (i - 1)) (rfc_static ++ inner t)), Hs.
      assert (Hl : (N.to_nat (i - 1) < length (rfc_static ++ inner t))%nat).
      { assert (H : length (skipn (N.to_nat (i - 1)) (rfc_static ++ inner t)) = S (length l)) by (rewrite Hs; reflexivity).
        rewrite skipn_length in H. lia. }
      rewrite nth_error_app2 by (rewrite firstn_length; lia).
      rewrite firstn_length, Nat.min_l, Nat.sub_diag by lia. reflexivity. }
    rewrite Hn. simpl length in Hb, Hf.
    rewrite (IH (i + 1)); [reflexivity|lia| |lia|lia].
    replace (N.to_nat (i + 1 - 1)) with (1 + N.to_nat (i - 1))%nat by lia.
    rewrite skipn_plus, Hs. reflexivity.
Qed.

Lemma table_iter_ok {E} m t : wf t -> @table_iter E m t = Ok (rfc_static ++ inner t).
Proof.
  intros Hw. pose proof (wf_length t Hw) as Hl. unfold table_iter.
  change (2 ^ 27) with 134217728 in Hl.
  assert (L : length (rfc_static ++ inner t) = (61 + length (inner t))%nat) by (rewrite app_length; reflexivity).
  apply iter_from_ok; [exact Hw|lia|reflexivity| |].
  - rewrite L. change (2 ^ 32) with 4294967296. lia.
  - rewrite L. unfold table_len. rewrite static_length. lia.
Qed.

(* Search *)
Lemma list_eqb_eq a b : list_eqb a b = true <-> a = b.
Proof.
  revert b. induction a as [|x a IH]; intros [|y b]; simpl; try (split; congruence).
  rewrite andb_true_iff, N.eqb_eq, IH. split; [intros [-> ->]; reflexivity | intros [= -> ->]; auto].
Qed.

Definition at1 (l : list field_line) (i : N) : option field_line :=
  if i =? 0 then None else nth_error l (N.to_nat (i - 1)).

Lemma at1_app_l p l i : 1 <= i <= N.of_nat (length p) -> at1 (p ++ l) i = at1 p i.
Proof.
  intros H. unfold at1. destruct (i =? 0); [reflexivity|]. apply nth_error_app1. lia.
Qed.

Lemma at1_some_bound l i e : at1 l i = Some e -> 1 <= i <= N.of_nat (length l).
Proof.
  unfold at1. destruct (i =? 0) eqn:E; [discriminate|]. apply N.eqb_neq in E. intros H.
  assert (nth_error l (N.to_nat (i - 1)) <> None) as H' by congruence. apply nth_error_Some in H'. lia.
Qed.

Lemma at1_mid p x l : at1 (p ++ x :: l) (N.of_nat (length p) + 1) = Some x.
Proof.
  unfold at1. replace (N.of_nat (length p) + 1 =? 0) with false by (symmetry; apply N.eqb_neq; lia).
  rewrite nth_error_app2 by lia. replace (N.to_nat (N.of_nat (length p) + 1 - 1) - length p)%nat with 0%nat by lia.
  reflexivity.
Qed.

Lemma at1_lt p l i e : at1 (p ++ l) i = Some e -> i <= N.of_nat (length p) -> at1 p i = Some e.
Proof.
  intros H Hi. pose proof (at1_some_bound _ _ _ H). rewrite at1_app_l in H by lia. exact H.
Qed.

Lemma find_loop_ok name value : forall l p nm,
  (forall i, at1 p i <> Some (name, value)) ->
  (match nm with
   | None => forall i v, at1 p i <> Some (name, v)
   | Some k => (exists v, at1 p k = Some (name, v)) /\ forall j v, j < k -> at1 p j <> Some (name, v)
   end) ->
  find_spec (at1 (p ++ l)) name value (find_loop name value l (N.of_nat (length p)) nm).
Proof.
  induction l as [|[hn hv] l IH]; intros p nm Hfull Hnm; cbn [find_loop].
  - rewrite app_nil_r. destruct nm as [k|]; simpl.
    + destruct Hnm as [H1 H2]. auto.
    + exact Hnm.
  - cbn [fst snd].
    assert (Hstep : forall nm', 
      (list_eqb name hn = true -> list_eqb value hv = false) ->
      (match nm' with
       | None => forall i v, at1 (p ++ [(hn, hv)]) i <> Some (name, v)
       | Some k => (exists v, at1 (p ++ [(hn, hv)]) k = Some (name, v)) /\
      forall j v, j < k -> at1 (p ++ [(hn, hv)]) j <> Some (name, v)
       end) ->
      find_spec (at1 (p ++ (hn, hv) :: l)) name value (find_loop name value l (N.of_nat (length p) + 1) nm')).
    { intros nm' Hne Hnm'.
      replace (p ++ (hn, hv) :: l) with ((p ++ [(hn, hv)]) ++ l) by (rewrite <- app_assoc; reflexivity).
      replace (N.of_nat (length p) + 1) with (N.of_nat (length (p ++ [(hn, hv)]))) by (rewrite app_length; simpl; lia).
      apply IH; [|exact Hnm'].
      intros i H. destruct (N.le_gt_cases i (N.of_nat (length p))) as [Hle|Hgt].
      - apply at1_lt in H; auto. apply (Hfull i H).
      - pose proof (at1_some_bound _ _ _ H) as B. rewrite app_length in B. simpl in B.
        assert (i = N.of_nat (length p) + 1) by lia. subst i. rewrite at1_mid in H.
        injection H as -> ->.
        assert (list_eqb name name = true) as T by (apply list_eqb_eq; reflexivity).
        assert (list_eqb value value = true) as T' by (apply list_eqb_eq; reflexivity).
        rewrite Hne in T' by exact T. discriminate. }
    destruct (list_eqb name hn) eqn:En.
    + apply list_eqb_eq in En. subst hn. destruct (list_eqb value hv) eqn:Ev.
      * apply list_eqb_eq in Ev. subst hv. simpl. split; [apply at1_mid|].
        intros j Hj H. apply at1_lt in H; [|lia]. apply (Hfull j H).
      * apply Hstep; [auto|]. destruct nm as [k|].
        -- destruct Hnm as [[v H1] H2]. pose proof (at1_some_bound _ _ _ H1) as B. split.
           ++ exists v. rewrite at1_app_l by lia. exact H1.
           ++ intros j w Hj H. apply at1_lt in H; [|lia]. apply (H2 j w Hj H).
        -- split; [exists hv; apply at1_mid|].
           intros j w Hj H. apply at1_lt in H; [|lia]. apply (Hnm j w H).
    + assert (Hne : name <> hn).
      { intros ->. assert (list_eqb hn hn = true) by (apply list_eqb_eq; reflexivity). congruence. }
      apply Hstep; [discriminate|]. destruct nm as [k|].
      * destruct Hnm as [[v H1] H2]. pose proof (at1_some_bound _ _ _ H1) as B. split.
        -- exists v. rewrite at1_app_l by lia. exact H1.
        -- intros j w Hj H. apply at1_lt in H; [|lia]. apply (H2 j w Hj H).
      * intros i v H. destruct (N.le_gt_cases i (N.of_nat (length p))) as [Hle|Hgt].
        -- apply at1_lt in H; auto. apply (Hnm i v H).
        -- pose proof (at1_some_bound _ _ _ H) as B. rewrite app_length in B. simpl in B.
           assert (i = N.of_nat (length p) + 1) by lia. subst i. rewrite at1_mid in H.
           injection H as -> ->. congruence.
Qed.

Lemma table_find_ok {E} m t name value : wf t ->
  exists r, @table_find E m t name value = Ok r /\ find_spec (lookup (inner t)) name value r.
Proof.
  intros Hw. unfold table_find. rewrite table_iter_ok by exact Hw. cbn [bind].
  eexists. split; [reflexivity|].
  lazymatch goal with |- context [find_loop name value _ 0 None] => idtac end.    (* fail early *)
  apply (find_loop_ok name value (rfc_static ++ inner t) [] None).
  - intros i H. apply at1_some_bound in H. simpl in H. lia.
  - intros i v H. apply at1_some_bound in H. simpl in H. lia.
Qed.

Lemma find_spec_unique get name value r1 r2 :
  (get 0 = None) -> find_spec get name value r1 -> find_spec get name value r2 -> r1 = r2.
Proof.
  intros H0. destruct r1 as [[i1 []]|], r2 as [[i2 []]|]; simpl; intros A B.
  - destruct A as [A1 A2], B as [B1 B2].
    destruct (N.lt_trichotomy i1 i2) as [H|[->|H]]; [exfalso; apply (B2 _ H A1)|reflexivity|exfalso; apply (A2 _ H B1)].
  - destruct A as [A1 _], B as (_ & _ & B). exfalso. apply (B _ A1).
  - destruct A as [A1 _]. exfalso. apply (B _ _ A1).
  - destruct B as [B1 _], A as (_ & _ & A). exfalso. apply (A _ B1).
  - destruct A as ((v1 & A1) & A2 & _), B as ((v2 & B1) & B2 & _).
    destruct (N.lt_trichotomy i1 i2) as [H|[->|H]]; [exfalso; apply (B2 _ _ H A1)|reflexivity|exfalso; apply (A2 _ _ H B1)].
  - destruct A as ((v1 & A1) & _). exfalso. apply (B _ _ A1).
  - destruct B as [B1 _]. exfalso. apply (A _ _ B1).
  - destruct B as ((v & B1) & _). exfalso. apply (A _ _ B1).
  - reflexivity.
Qed.
