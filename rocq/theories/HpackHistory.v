(* How long a header field stays in the dynamic table when the table is resized, too
   (second part of C87). *)
From Verif Require Import Base HuffTables HuffModel HuffSpec HuffCode HuffDecProofs HuffDerived HuffMore Leb HpackStatic HpackModel
  HpackSpec HpackApi HpackInt HpackStr HpackTab HpackDec HpackEnc HpackDerived HpackMore HpackMore2 HpackUnique HpackLength HpackRetain.
Open Scope list_scope.
Open Scope N_scope.

(* ------------------------------------------------------------------ *)
(* Specification vocabulary. *)

(* What happened to a table, oldest event first. *)
Inductive tevent := Stored (e : field_line) | Maximum (n : N).
Definition stored_in (evs : list tevent) : list field_line :=
  flat_map (fun ev => match ev with Stored e => [e] | Maximum _ => [] end) evs.
(* All entries that were ever in it, newest first, if it began with l. *)
Definition ever (l : list field_line) (evs : list tevent) : list field_line := rev (stored_in evs) ++ l.
(* Its maximum, if it began with m0. *)
Definition maximum (m0 : N) (evs : list tevent) : N :=
  last (flat_map (fun ev => match ev with Stored _ => [] | Maximum n => [n] end) evs) m0.
(* The entry that is now the k-th newest (from 0) always fitted: at every moment since it was
   there, it and the newer ones of that moment were within the maximum of that moment. *)
Definition always_fitted (l : list field_line) (m0 : N) (evs : list tevent) (k : nat) : Prop :=
  forall before after, evs = before ++ after -> (List.length (stored_in after) <= k)%nat ->
    size (firstn (S k - List.length (stored_in after)) (ever l before)) <= maximum m0 before.

(* The events of an encoder session: a resize, or a field that is sent with indexing. *)
Fixpoint session_events (d : dyn) (ops : list op) : list tevent :=
  match ops with
  | [] => []
  | o :: ops' =>
      let '(d', hs, _) := op_meaning d o in
      match o with Resize n => [Maximum n] | Send _ => map Stored (stored hs) end ++ session_events d' ops'
  end.
(* The events of a decoded block: an update, or a header emitted with flags 4. *)
Fixpoint block_events (limit : N) (d : dyn) (rs : list repr) : list tevent :=
  match rs with
  | [] => []
  | r :: rs' =>
      match interp limit d r with
      | inl (d', hs) =>
          match r with RSize n => [Maximum n] | _ => map Stored (stored hs) end ++ block_events limit d' rs'
      | inr _ => []
      end
  end.

(* ------------------------------------------------------------------ *)
Definition evolve1 (d : dyn) (ev : tevent) : dyn := match ev with Stored e => insert d e | Maximum n => resize d n end.
Definition evolve (d : dyn) (evs : list tevent) : dyn := fold_left evolve1 evs d.

Lemma stored_in_app a b : stored_in (a ++ b) = stored_in a ++ stored_in b.
Proof. unfold stored_in. apply flat_map_app. Qed.
Lemma ever_app l a b : ever l (a ++ b) = rev (stored_in b) ++ ever l a.
Proof. unfold ever. now rewrite stored_in_app, rev_app_distr, app_assoc. Qed.
Lemma last_snoc_default {A} (l : list A) x d : last (l ++ [x]) d = x.
Proof. apply last_last. Qed.
Lemma maximum_snoc m0 evs ev : maximum m0 (evs ++ [ev]) = match ev with Stored _ => maximum m0 evs | Maximum n => n end.
Proof.
  unfold maximum. rewrite flat_map_app. destruct ev; cbn [flat_map app]; [now rewrite app_nil_r|apply last_last].
Qed.
Lemma evolve_max d evs : max_size (evolve d evs) = maximum (max_size d) evs.
Proof.
  induction evs as [|ev evs IH] using rev_ind; [reflexivity|]. unfold evolve. rewrite fold_left_app, maximum_snoc.
  cbn [fold_left]. destruct ev; cbn [evolve1 insert resize max_size]; [exact IH|reflexivity].
Qed.

Lemma firstn_of_nth {A} (a l : list A) k x : prefix a l -> nth_error a k = Some x -> firstn (S k) a = firstn (S k) l /\ nth_error l k = Some x.
Proof.
  intros [b ->] H. assert (L : (k < List.length a)%nat) by (apply nth_error_Some; congruence).
  split; [|now rewrite nth_error_app1]. rewrite firstn_app. replace (S k - List.length a)%nat with O by lia.
  cbn [firstn]. now rewrite app_nil_r.
Qed.
Lemma fit_is_prefix max l : prefix (fit max l) l.
Proof. exact (proj1 (fit_fits max l)). Qed.
Lemma prefix_trans {A} (a b c : list A) : prefix a b -> prefix b c -> prefix a c.
Proof. intros [x ->] [y ->]. exists (x ++ y). now rewrite app_assoc. Qed.
Lemma fit_nth_iff max l k e : nth_error (fit max l) k = Some e <-> nth_error l k = Some e /\ size (firstn (S k) l) <= max.
Proof.
  split.
  - intros H. destruct (firstn_of_nth _ _ _ _ (fit_is_prefix max l) H) as [F N1]. split; [exact N1|].
    destruct (N.le_gt_cases (size (firstn (S k) l)) max) as [|G]; [assumption|].
    destruct (fit_nth max l k e N1) as [_ B]. rewrite (B G) in H. discriminate.
  - intros [H L]. now apply (fit_nth max l k e H).
Qed.

Lemma evolve_prefix d evs : prefix (entries (evolve d evs)) (ever (entries d) evs).
Proof.
  induction evs as [|ev evs IH] using rev_ind; [exists []; now rewrite app_nil_r|].
  unfold evolve. rewrite fold_left_app, ever_app. cbn [fold_left]. fold (evolve d evs).
  destruct ev as [e|n]; cbn [evolve1 insert resize entries stored_in flat_map rev app].
  - eapply prefix_trans; [apply fit_is_prefix|]. destruct IH as [x ->]. exists x. reflexivity.
  - eapply prefix_trans; [apply fit_is_prefix|exact IH].
Qed.

(* The conditions at the last moment and at the earlier ones. *)
Lemma fitted_now l m0 evs k : always_fitted l m0 evs k -> size (firstn (S k) (ever l evs)) <= maximum m0 evs.
Proof. intros H. specialize (H evs [] (eq_sym (app_nil_r evs))). cbn in H. apply H. lia. Qed.
Lemma snoc_split {A} (evs : list A) ev before after : evs ++ [ev] = before ++ after ->
  after = [] /\ before = evs ++ [ev] \/ exists after', after = after' ++ [ev] /\ evs = before ++ after'.
Proof.
  destruct after as [|x after _] using rev_ind; intros H.
  - left. now rewrite app_nil_r in H.
  - right. rewrite app_assoc in H. apply app_inj_tail in H as [H ->]. eauto.
Qed.
Lemma fitted_stored l m0 evs e k : always_fitted l m0 (evs ++ [Stored e]) (S k) <->
  size (firstn (S (S k)) (ever l (evs ++ [Stored e]))) <= maximum m0 (evs ++ [Stored e]) /\ always_fitted l m0 evs k.
Proof.
  split.
  - intros H. split; [now apply fitted_now|]. intros before after E L.
    specialize (H before (after ++ [Stored e])). rewrite E, <- app_assoc, stored_in_app, app_length in H. change (List.length (stored_in [Stored e])) with 1%nat in H.
    replace (S (S k) - (List.length (stored_in after) + 1))%nat with (S k - List.length (stored_in after))%nat in H by lia.
    apply H; [reflexivity|lia].
  - intros [H1 H2] before after E L. apply snoc_split in E as [[-> ->]|(after' & -> & E)].
    + exact H1.
    + rewrite stored_in_app, app_length in *. change (List.length (stored_in [Stored e])) with 1%nat in *.
      replace (S (S k) - (List.length (stored_in after') + 1))%nat with (S k - List.length (stored_in after'))%nat by lia.
      apply H2; [exact E|lia].
Qed.
Lemma fitted_first l m0 evs e : always_fitted l m0 (evs ++ [Stored e]) 0 <->
  size (firstn 1 (ever l (evs ++ [Stored e]))) <= maximum m0 (evs ++ [Stored e]).
Proof.
  split; [apply fitted_now|]. intros H before after E L. apply snoc_split in E as [[-> ->]|(after' & -> & E)]; [exact H|].
  rewrite stored_in_app, app_length in L. cbn in L. lia.
Qed.
Lemma fitted_maximum l m0 evs n k : always_fitted l m0 (evs ++ [Maximum n]) k <->
  size (firstn (S k) (ever l (evs ++ [Maximum n]))) <= maximum m0 (evs ++ [Maximum n]) /\ always_fitted l m0 evs k.
Proof.
  split.
  - intros H. split; [now apply fitted_now|]. intros before after E L.
    specialize (H before (after ++ [Maximum n])). rewrite E, <- app_assoc, stored_in_app, app_length in H. change (List.length (stored_in [Maximum n])) with 0%nat in H.
    rewrite Nat.add_0_r in H. apply H; [reflexivity|exact L].
  - intros [H1 H2] before after E L. apply snoc_split in E as [[-> ->]|(after' & -> & E)].
    + exact H1.
    + rewrite stored_in_app, app_length in *. change (List.length (stored_in [Maximum n])) with 0%nat in *. rewrite Nat.add_0_r in *. now apply H2.
Qed.

Lemma size_prefix_mono a l k : prefix a l -> size a <= size l /\ (size (firstn k l) <= size l).
Proof.
  intros [b ->]. split.
  - induction a; cbn [size app]; lia.
  - generalize (a ++ b) as l. clear. intros l. revert k. induction l as [|x l IH]; intros [|k]; cbn [firstn size]; try lia.
    specialize (IH k). lia.
Qed.

Theorem evolve_nth d evs : size (entries d) <= max_size d -> forall k e,
  nth_error (entries (evolve d evs)) k = Some e <->
  nth_error (ever (entries d) evs) k = Some e /\ always_fitted (entries d) (max_size d) evs k.
Proof.
  intros Hs. induction evs as [|ev evs IH] using rev_ind; intros k e.
  - cbn [evolve fold_left]. unfold ever. cbn [stored_in flat_map rev app]. split; [|tauto]. intros H. split; [exact H|].
    intros before after E L. symmetry in E. apply app_eq_nil in E as [-> ->].
    change (size (firstn (S k) (entries d)) <= max_size d).
    pose proof (proj2 (size_prefix_mono (entries d) (entries d) (S k) (ex_intro _ [] (eq_sym (app_nil_r _))))). lia.
  - assert (Hp : prefix (entries (evolve d evs)) (ever (entries d) evs)) by apply evolve_prefix.
    unfold evolve. rewrite fold_left_app. cbn [fold_left]. fold (evolve d evs).
    assert (Em : max_size (evolve d evs) = maximum (max_size d) evs) by apply evolve_max.
    destruct ev as [x|n]; cbn [evolve1 insert resize entries]; rewrite fit_nth_iff.
    + rewrite ever_app. cbn [stored_in flat_map rev app]. destruct k as [|k].
      * cbn [nth_error]. rewrite fitted_first, ever_app, maximum_snoc. cbn [stored_in flat_map rev app firstn]. rewrite Em. reflexivity.
      * cbn [nth_error]. rewrite fitted_stored, ever_app, maximum_snoc. cbn [stored_in flat_map rev app].
        rewrite Em, IH. split.
        -- intros [[A B] C]. split; [exact A|]. split; [|exact B].
           assert (D : nth_error (entries (evolve d evs)) k = Some e) by (apply IH; auto).
           destruct (firstn_of_nth _ _ _ _ Hp D) as [F _].
           change (firstn (S (S k)) (x :: ever (entries d) evs)) with (x :: firstn (S k) (ever (entries d) evs)).
           change (firstn (S (S k)) (x :: entries (evolve d evs))) with (x :: firstn (S k) (entries (evolve d evs))) in C.
           now rewrite F in C.
        -- intros [A [C B]]. split; [auto|].
           assert (D : nth_error (entries (evolve d evs)) k = Some e) by (apply IH; auto).
           destruct (firstn_of_nth _ _ _ _ Hp D) as [F _].
           change (firstn (S (S k)) (x :: ever (entries d) evs)) with (x :: firstn (S k) (ever (entries d) evs)) in C.
           change (firstn (S (S k)) (x :: entries (evolve d evs))) with (x :: firstn (S k) (entries (evolve d evs))).
           now rewrite F.
    + rewrite fitted_maximum, ever_app, maximum_snoc. cbn [stored_in flat_map rev app]. rewrite IH. split.
      * intros [[A B] C]. split; [exact A|]. split; [|exact B].
        assert (D : nth_error (entries (evolve d evs)) k = Some e) by (apply IH; auto).
        destruct (firstn_of_nth _ _ _ _ Hp D) as [F _]. now rewrite F in C.
      * intros [A [C B]]. split; [auto|].
        assert (D : nth_error (entries (evolve d evs)) k = Some e) by (apply IH; auto).
        destruct (firstn_of_nth _ _ _ _ Hp D) as [F _]. now rewrite F.
Qed.

(* ------------------------------------------------------------------ *)
(* The encoder and the decoder evolve like this. *)
Lemma evolve_app d a b : evolve d (a ++ b) = evolve (evolve d a) b.
Proof. apply fold_left_app. Qed.
Lemma dyn_eta d : mkdyn (entries d) (max_size d) = d.
Proof. now destruct d. Qed.
Lemma stored_one_event d h d' : stored [h] = [] /\ d' = d \/ stored [h] = [fst h] /\ d' = insert d (fst h) ->
  evolve d (map Stored (stored [h])) = d'.
Proof. intros [[-> ->]|[-> ->]]; reflexivity. Qed.
Lemma op_evolves d o d' hs r : op_meaning d o = (d', hs, r) ->
  evolve d (match o with Resize n => [Maximum n] | Send _ => map Stored (stored hs) end) = d'.
Proof.
  destruct o as [f|n]; cbn [op_meaning]; intros H.
  - destruct (field_of (entries d) f) as [[n v]|].
    + injection H as <- <- _. apply stored_one_event. change (n, v, flag_used (entries d) f) with ((n, v), flag_used (entries d) f).
      rewrite stored_one. destruct (flag_used (entries d) f =? 4); auto.
    + injection H as <- <- _. reflexivity.
  - injection H as <- _ _. reflexivity.
Qed.
Lemma session_evolves ops : forall d, evolve d (session_events d ops) = fst (fst (meaning d ops)).
Proof.
  induction ops as [|o ops IH]; intros d; [reflexivity|]. rewrite meaning_cons. cbn [session_events].
  destruct (op_meaning d o) as [[d1 h] r] eqn:E. rewrite evolve_app, (op_evolves d o d1 h r E), IH.
  destruct (meaning d1 ops) as [[d2 hs] rs]. reflexivity.
Qed.
Lemma repr_evolves limit d r d' hs : interp limit d r = inl (d', hs) ->
  evolve d (match r with RSize n => [Maximum n] | _ => map Stored (stored hs) end) = d'.
Proof.
  destruct r as [i|k nr h v|n]; cbn [interp]; intros H.
  - destruct (lookup (entries d) i) as [[n v]|]; [|discriminate]. injection H as <- <-.
    apply stored_one_event. change (n, v, 0) with ((n, v), 0). rewrite stored_one. auto.
  - destruct (resolve d nr) as [n|]; [|discriminate]. injection H as <- <-. apply stored_one_event.
    change (n, v, kind_flag k) with ((n, v), kind_flag k). rewrite stored_one. destruct k; cbn; auto.
  - destruct (n <=? limit); [|discriminate]. injection H as <- _. reflexivity.
Qed.
Lemma block_evolves limit rs : forall d d' hs, interp_all limit d rs = Some (d', hs) -> evolve d (block_events limit d rs) = d'.
Proof.
  induction rs as [|r rs IH]; intros d d' hs H; cbn [interp_all block_events] in *.
  - injection H as <- _. reflexivity.
  - destruct (interp limit d r) as [[d1 h]|] eqn:E; [|discriminate].
    destruct (interp_all limit d1 rs) as [[d2 hs2]|] eqn:E2; [|discriminate]. injection H as <- _.
    rewrite evolve_app, (repr_evolves limit d r d1 h E). eapply IH; eauto.
Qed.

Lemma get_dynamic t k : table_get t (62 + N.of_nat k) = nth_error (inner t) k.
Proof.
  rewrite get_lookup. unfold lookup. replace (62 + N.of_nat k =? 0) with false by (symmetry; apply N.eqb_neq; lia).
  replace (N.to_nat (62 + N.of_nat k - 1)) with (List.length rfc_static + k)%nat
    by (replace (List.length rfc_static) with 61%nat by reflexivity; lia).
  rewrite nth_error_app2 by lia. f_equal. lia.
Qed.

Lemma run_ops_meaning m ops : forall t dst t' dst' rs, wf t -> Forall op_typed ops -> run_ops m t dst ops = (t', dst', rs) -> no_overflow rs ->
  abs t' = fst (fst (meaning (abs t) ops)).
Proof.
  induction ops as [|o ops IH]; intros t dst t' dst' rs Hw Hty Hr Hno.
  - cbn [run_ops] in Hr. injection Hr as <- _ _. reflexivity.
  - inversion Hty as [|? ? T1 T2]; subst. rewrite run_ops_cons in Hr.
    assert (N1 : snd (op_step m t dst o) <> Err EIntegerOverflow).
    { intros E. destruct (op_step m t dst o) as [[t1 dst1] r1]. cbn in E. subst r1.
      destruct (run_ops m t1 dst1 ops) as [[? ?] ?]. injection Hr as _ _ <-. apply Hno. now left. }
    destruct (op_step_ok m t dst o Hw T1 N1) as (d1 & h & res & Em & Hw1 & C).
    assert (E : exists bs, op_step m t dst o = ((conc d1, bs), res)).
    { destruct C as [(E & _)|(_ & bs & r & E & _)]; eauto. }
    destruct E as [bs E]. rewrite E in Hr. rewrite meaning_cons, Em.
    destruct (run_ops m (conc d1) bs ops) as [[t2 dst2] rs2] eqn:E2. injection Hr as <- <- <-.
    assert (N2 : no_overflow rs2) by (intros I; apply Hno; now right).
    rewrite (IH (conc d1) bs t2 dst2 rs2 Hw1 T2 E2 N2), abs_conc.
    destruct (meaning d1 ops) as [[d2 hs2] r2]. reflexivity.
Qed.

Theorem encoder_history m ops t dst t' dst' rs : wf t -> Forall op_typed ops ->
  run_ops m t dst ops = (t', dst', rs) -> no_overflow rs ->
  let evs := session_events (abs t) ops in
  dmax t' = maximum (dmax t) evs /\
  forall k e, table_get t' (62 + N.of_nat k) = Some e <->
    nth_error (ever (inner t) evs) k = Some e /\ always_fitted (inner t) (dmax t) evs k.
Proof.
  intros Hw Hty Hr Hno evs. pose proof (run_ops_meaning m ops t dst t' dst' rs Hw Hty Hr Hno) as E.
  rewrite <- session_evolves in E. fold evs in E. split.
  - change (dmax t') with (max_size (abs t')). rewrite E. apply evolve_max.
  - intros k e. rewrite get_dynamic. change (inner t') with (entries (abs t')). rewrite E.
    apply (evolve_nth (abs t) evs). exact (proj1 (proj2 Hw)).
Qed.

Theorem decoder_history m d buf dst d1 rest dst1 o : wf (dtable d) -> bytes buf ->
  hdecode m d buf dst = ((d1, rest, dst1), o) ->
  exists prs, buf = wire_octets prs ++ rest /\ wires 5 code_padding prs /\
    let evs := block_events (dlimit d) (abs (dtable d)) (reprs prs) in
    dmax (dtable d1) = maximum (dmax (dtable d)) evs /\
    forall k e, table_get (dtable d1) (62 + N.of_nat k) = Some e <->
      nth_error (ever (inner (dtable d)) evs) k = Some e /\ always_fitted (inner (dtable d)) (dmax (dtable d)) evs k.
Proof.
  intros Hw Hb H. destruct (hdecode_total m d buf dst Hw Hb) as (prs & r0 & d' & hs & s & E1 & Hp & Hi & _ & _ & E2).
  rewrite H in E2. injection E2 as Ed Er _ _. exists prs. rewrite Er. split; [exact E1|]. split; [exact Hp|].
  intros evs. pose proof (block_evolves _ _ _ _ _ Hi) as Ev. fold evs in Ev. rewrite Ed. cbn [set_table dtable conc dmax].
  split.
  - rewrite <- Ev. apply evolve_max.
  - intros k e. rewrite get_dynamic. cbn [conc inner]. rewrite <- Ev. apply (evolve_nth (abs (dtable d)) evs). exact (proj1 (proj2 Hw)).
Qed.
