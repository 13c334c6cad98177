(* A decoder whose table is out of step with the encoder's: exactly when every header still
   arrives, and exactly when no wrong header can arrive (C115).

   The environment is not code of the repository: one encoder, whose octets for any list of
   calls are handed to one decoder.  Its steps are the modelled API calls of HpackModel.v. *)
From Verif Require Import Base HuffTables HuffModel HuffSpec HuffCode Leb HpackStatic HpackModel
  HpackSpec HpackApi HpackInt HpackStr HpackTab HpackDec HpackEnc HpackDerived HpackMore HpackRetain HpackSizes
  HpackConn HpackAlike.
Open Scope list_scope.
Open Scope N_scope.

(* ------------------------------------------------------------------ *)
(* Specification vocabulary. *)

(* What the encoder with table t writes for the calls. *)
Definition written (m : mode) (t : table) (ops : list op) : list N := snd (fst (run_ops m t [] ops)).

(* Whatever calls the encoder gets (with arguments this decoder can read), the decoder reads
   all of it and reports exactly the headers sent. *)
Definition complete (m m' : mode) (t : table) (d : decoder) : Prop :=
  forall ops, Forall (op_ok (dlimit d)) ops ->
  exists d' n, hdecode m' d (written m t ops) [] = ((d', [], headers (abs t) ops), Ok n).

(* Whatever calls the encoder gets, the headers the decoder reports before it ends or stops
   are the first of those sent: it may miss headers, but reports no wrong one. *)
Definition truthful (m m' : mode) (t : table) (d : decoder) : Prop :=
  forall ops, Forall (op_ok (dlimit d)) ops ->
  forall d' rest got v, hdecode m' d (written m t ops) [] = ((d', rest, got), v) ->
  prefix got (headers (abs t) ops).

(* The conditions, on what the two tables hold (newest entry first). *)
Definition covers (d t : table) : Prop :=
  prefix (inner t) (inner d) /\ (dmax t <= dmax d \/ dmax t < 32).
Definition comparable (t d : table) : Prop := prefix (inner t) (inner d) \/ prefix (inner d) (inner t).

(* ------------------------------------------------------------------ *)
(* covers is enough. *)
Definition covers_dyn (t d : dyn) : Prop :=
  prefix (entries t) (entries d) /\ (max_size t <= max_size d \/ max_size t < 32).
Lemma covers_insert t d e : covers_dyn t d -> covers_dyn (insert t e) (insert d e).
Proof.
  intros [P [M|M]].
  - destruct (insert_more t d e (conj P M)) as [P' M']. split; [exact P'|now left].
  - split; [|now right]. unfold insert. cbn [entries]. rewrite fit_tiny by exact M. eexists. reflexivity.
Qed.
Lemma covers_resize t d n : covers_dyn t d -> covers_dyn (resize t n) (resize d n).
Proof.
  intros [P _]. split; [|left; apply N.le_refl]. unfold resize. cbn [entries]. apply fit_mono; [exact P|lia].
Qed.
Lemma interp_covers limit t d r t' hs : covers_dyn t d -> interp limit t r = inl (t', hs) ->
  exists d', interp limit d r = inl (d', hs) /\ covers_dyn t' d'.
Proof.
  intros H. destruct r as [i|k nr h v|n]; cbn [interp].
  - destruct (lookup (entries t) i) as [[n v]|] eqn:E; [|discriminate]. intros [= <- <-].
    rewrite (lookup_more _ _ _ _ (proj1 H) E). eauto.
  - destruct (resolve t nr) as [n|] eqn:E; [|discriminate]. intros [= <- <-].
    assert (E' : resolve d nr = Some n).
    { destruct nr as [i|hn s]; cbn [resolve] in *; [|exact E].
      destruct (lookup (entries t) i) as [e|] eqn:El; [|discriminate]. now rewrite (lookup_more _ _ _ _ (proj1 H) El). }
    rewrite E'. eexists. split; [reflexivity|]. destruct k; auto using covers_insert.
  - destruct (n <=? limit); [|discriminate]. intros [= <- <-]. eauto using covers_resize.
Qed.
Lemma interp_all_covers limit rs : forall t d t' hs, covers_dyn t d -> interp_all limit t rs = Some (t', hs) ->
  exists d', interp_all limit d rs = Some (d', hs) /\ covers_dyn t' d'.
Proof.
  induction rs as [|r rs IH]; intros t d t' hs H; cbn [interp_all]; [intros [= <- <-]; eauto|].
  destruct (interp limit t r) as [[t1 h1]|] eqn:E1; [|discriminate].
  destruct (interp_all limit t1 rs) as [[t2 h2]|] eqn:E2; [|discriminate]. intros [= <- <-].
  destruct (interp_covers limit t d r t1 h1 H E1) as (d1 & -> & H1). destruct (IH _ _ _ _ H1 E2) as (d2 & -> & H2). eauto.
Qed.

Theorem covers_session m m' ops d t dst0 : wf t -> wf (dtable d) -> dlimit d < 2 ^ 32 -> Forall (op_ok (dlimit d)) ops ->
  covers (dtable d) t ->
  exists t' out d' n,
    run_ops m t [] ops = (t', out, snd (meaning (abs t) ops)) /\
    hdecode m' d out dst0 = ((set_table d d', [], dst0 ++ headers (abs t) ops), Ok n) /\
    wf t' /\ wf d' /\ covers d' t'.
Proof.
  intros Hw Hwd Hl Hops Hm. destruct (session_ok m (dlimit d) ops t [] Hw Hl Hops)
    as (out & prs & t1 & hs & Hrun & Hme & Ho & Hp & Hb & Hi).
  destruct (interp_all_covers _ _ (abs t) (abs (dtable d)) _ _ Hm Hi) as (D' & Hi' & Hm').
  assert (Hp' : wires 5 code_padding prs).
  { eapply Forall_impl; [|exact Hp]. intros [b r]. simpl. apply repr_wire_pad. apply rfc_code_padding. }
  exists (conc t1), out, (conc D'), (counted prs). simpl app in Hrun. split; [exact Hrun|].
  unfold headers. rewrite Hme. cbn [snd]. split.
  - rewrite <- (app_nil_r out), Ho. rewrite (hdecode_ok m' d prs [] D' hs Done dst0); auto.
    + rewrite app_nil_r, <- Ho. exact Hb.
    + constructor.
  - split; [|split; [|exact Hm']].
    + apply (interp_all_wf (dlimit d) prs (abs t) t1 hs); auto. unfold wfd. now rewrite conc_abs.
    + apply (interp_all_wf (dlimit d) prs (abs (dtable d)) D' hs); auto. unfold wfd. now rewrite conc_abs.
Qed.

(* ------------------------------------------------------------------ *)
(* comparable is enough. *)
Definition comparable_dyn (t d : dyn) : Prop := prefix (entries t) (entries d) \/ prefix (entries d) (entries t).
Lemma prefix_trans {A} (a b c : list A) : prefix a b -> prefix b c -> prefix a c.
Proof. intros [x ->] [y ->]. exists (x ++ y). now rewrite app_assoc. Qed.
Lemma fit_comparable a b k l : prefix k l -> prefix (fit a k) (fit b l) \/ prefix (fit b l) (fit a k).
Proof.
  intros P. assert (P1 : prefix (fit a k) l) by (apply (prefix_trans _ k); [apply fit_prefix|exact P]).
  pose proof (fit_prefix b l) as P2.
  destruct (Nat.le_ge_cases (List.length (fit a k)) (List.length (fit b l))); [left|right];
    eapply prefix_total; eassumption.
Qed.
Lemma comparable_fit a b k l : prefix k l \/ prefix l k -> prefix (fit a k) (fit b l) \/ prefix (fit b l) (fit a k).
Proof. intros [P|P]; [now apply fit_comparable|]. apply or_comm. now apply fit_comparable. Qed.
Lemma lookup_comparable k l i e e' : prefix k l \/ prefix l k -> lookup k i = Some e -> lookup l i = Some e' -> e = e'.
Proof.
  intros [P|P] E E'; [pose proof (lookup_more _ _ _ _ P E)|pose proof (lookup_more _ _ _ _ P E')]; congruence.
Qed.
Lemma comparable_insert t d e : comparable_dyn t d -> comparable_dyn (insert t e) (insert d e).
Proof.
  intros P. apply comparable_fit. destruct P as [[x P]|[x P]]; [left|right]; exists x; cbn; now rewrite P.
Qed.
Lemma comparable_resize t d n : comparable_dyn t d -> comparable_dyn (resize t n) (resize d n).
Proof. intros P. now apply comparable_fit. Qed.

Lemma interp_comparable limit t d r t' hs : comparable_dyn t d -> interp limit t r = inl (t', hs) ->
  interp limit d r = inr BadIndex \/ exists d', interp limit d r = inl (d', hs) /\ comparable_dyn t' d'.
Proof.
  intros H. destruct r as [i|k nr h v|n]; cbn [interp].
  - destruct (lookup (entries t) i) as [[n v]|] eqn:E; [|discriminate]. intros [= <- <-].
    destruct (lookup (entries d) i) as [[n' v']|] eqn:E'; [|now left]. right.
    pose proof (lookup_comparable _ _ _ _ _ H E E') as X. injection X as -> ->. eauto.
  - destruct (resolve t nr) as [n|] eqn:E; [|discriminate]. intros [= <- <-].
    destruct (resolve d nr) as [n'|] eqn:E'; [|now left]. right.
    assert (n = n').
    { destruct nr as [i|hn s]; cbn [resolve] in *; [|congruence].
      destruct (lookup (entries t) i) as [e|] eqn:El; [|discriminate].
      destruct (lookup (entries d) i) as [e'|] eqn:El'; [|discriminate].
      pose proof (lookup_comparable _ _ _ _ _ H El El'). subst e'. congruence. }
    subst n'. eexists. split; [reflexivity|]. destruct k; auto using comparable_insert.
  - destruct (n <=? limit); [|discriminate]. intros [= <- <-]. right. eauto using comparable_resize.
Qed.
Lemma interp_all_comparable limit prs : forall t d t' hs, comparable_dyn t d -> interp_all limit t (reprs prs) = Some (t', hs) ->
  (exists d', interp_all limit d (reprs prs) = Some (d', hs) /\ comparable_dyn t' d') \/
  (exists p1 pr p2 d1 h1 h2, prs = p1 ++ pr :: p2 /\ interp_all limit d (reprs p1) = Some (d1, h1) /\
     interp limit d1 (snd pr) = inr BadIndex /\ hs = h1 ++ h2).
Proof.
  induction prs as [|pr prs IH]; intros t d t' hs H; cbn [reprs map interp_all]; [intros [= <- <-]; eauto|].
  fold (reprs prs). destruct (interp limit t (snd pr)) as [[t1 h1]|] eqn:E1; [|discriminate].
  destruct (interp_all limit t1 (reprs prs)) as [[t2 h2]|] eqn:E2; [|discriminate]. intros [= <- <-].
  destruct (interp_comparable limit t d (snd pr) t1 h1 H E1) as [E|(d1 & E & H1)].
  - right. exists [], pr, prs, d, [], (h1 ++ h2). auto.
  - rewrite E. destruct (IH t1 d1 t2 h2 H1 E2) as [(d2 & -> & H2)|(p1 & pr' & p2 & d2 & g1 & g2 & -> & E3 & E4 & ->)].
    + left. eauto.
    + right. exists (pr :: p1), pr', p2, d2, (h1 ++ g1), g2. split; [reflexivity|]. split.
      * cbn [reprs map interp_all]. fold (reprs p1). rewrite E, E3. reflexivity.
      * split; [exact E4|now rewrite app_assoc].
Qed.

Theorem comparable_session m m' ops d t dst0 : wf t -> wf (dtable d) -> dlimit d < 2 ^ 32 -> Forall (op_ok (dlimit d)) ops ->
  comparable t (dtable d) ->
  exists t' out d' rest hs1 hs2 v,
    run_ops m t [] ops = (t', out, snd (meaning (abs t) ops)) /\
    hdecode m' d out dst0 = ((set_table d d', rest, dst0 ++ hs1), v) /\
    headers (abs t) ops = hs1 ++ hs2 /\ wf t' /\ wf d' /\
    ((exists n, v = Ok n) /\ rest = [] /\ hs2 = [] /\ comparable t' d' \/ v = Err DInvalidIndex).
Proof.
  intros Hw Hwd Hl Hops Hm. destruct (session_ok m (dlimit d) ops t [] Hw Hl Hops)
    as (out & prs & t1 & hs & Hrun & Hme & Ho & Hp & Hb & Hi).
  assert (Hp' : wires 5 code_padding prs).
  { eapply Forall_impl; [|exact Hp]. intros [b r]. simpl. apply repr_wire_pad. apply rfc_code_padding. }
  assert (Hwdd : wfd (abs (dtable d))) by (unfold wfd; now rewrite conc_abs).
  assert (Hwt : wf (conc t1)).
  { apply (interp_all_wf (dlimit d) prs (abs t) t1 hs); auto. unfold wfd. now rewrite conc_abs. }
  unfold headers. rewrite Hme. cbn [snd]. simpl app in Hrun.
  destruct (interp_all_comparable _ _ (abs t) (abs (dtable d)) _ _ Hm Hi) as [(D' & Hi' & Hm')|(p1 & pr & p2 & d1 & h1 & h2 & Ep & Hi' & Hbad & ->)].
  - exists (conc t1), out, (conc D'), [], hs, [], (Ok (counted prs)). rewrite app_nil_r. split; [exact Hrun|]. split.
    + rewrite <- (app_nil_r out), Ho. rewrite (hdecode_ok m' d prs [] D' hs Done dst0); auto.
      * rewrite app_nil_r, <- Ho. exact Hb.
      * constructor.
    + split; [reflexivity|]. split; [exact Hwt|]. split; [exact (interp_all_wf (dlimit d) prs _ _ _ Hwdd Hp' Hi')|]. left. eauto.
  - subst prs. unfold wires in Hp'. apply Forall_app in Hp' as [Hp1 Hp2]. inversion Hp2 as [|? ? Hpr Hp3]; subst.
    assert (Eo : wire_octets (p1 ++ pr :: p2) = wire_octets p1 ++ fst pr ++ wire_octets p2).
    { unfold wire_octets. rewrite map_app, concat_app. reflexivity. }
    exists (conc t1), (wire_octets (p1 ++ pr :: p2)), (conc d1), (fst pr ++ wire_octets p2), h1, h2, (Err DInvalidIndex).
    split; [exact Hrun|]. rewrite Eo in Hb |- *. split.
    + rewrite (hdecode_ok m' d p1 (fst pr ++ wire_octets p2) d1 h1 (Refused BadIndex) dst0); auto.
      apply (ends_refused _ _ (fst pr) (snd pr)); [exact Hpr|exact Hbad].
    + split; [reflexivity|]. split; [exact Hwt|]. split; [exact (interp_all_wf (dlimit d) p1 _ _ _ Hwdd Hp1 Hi')|]. now right.
Qed.

(* ------------------------------------------------------------------ *)
(* The conditions are necessary: one reference tells. *)
Lemma reference_written m t i e : wf t -> i < 2 ^ 28 -> lookup (inner t) i = Some e ->
  exists bs, written m t [Send (Indexed i)] = bs /\ bytes bs /\ int_wire 5 7 1 bs i /\
    headers (abs t) [Send (Indexed i)] = [(fst e, snd e, 0)].
Proof.
  intros W Hi E. unfold written, headers. cbn [run_ops hencode meaning field_of flag_used abs entries].
  rewrite E. destruct e as [n v]. cbn [fst snd].
  assert (R : chosen (inner t) (Indexed i) (RIndexed i)) by (econstructor; exact E).
  assert (Hi2 : i < 2 ^ 32) by (change (2 ^ 28) with 268435456 in Hi; change (2 ^ 32) with 4294967296; lia).
  destruct (session_ok m 0 [Send (Indexed i)] t [] W) as (out & prs & d' & hs & Hrun & Hme & Ho & Hp & Hb & Hia);
    [reflexivity|constructor; [split; [exact Hi2|exact Logic.I]|constructor]|].
  cbn [run_ops hencode] in Hrun. destruct (hencode_ok m t (Indexed i) [] (RIndexed i) W Hi2 R Logic.I) as (bs & d1 & h1 & Eh & _ & _ & _ & H5 & Hbs).
  cbn [hencode] in Eh. rewrite Eh. exists bs. split; [reflexivity|]. split; [exact Hbs|]. split; [|reflexivity].
  specialize (H5 Logic.I). inversion H5; subst. assumption.
Qed.

Lemma index_in_range t k e : wf t -> nth_error (inner t) k = Some e -> 62 + N.of_nat k < 2 ^ 28.
Proof.
  intros W E. pose proof (wf_length t W) as L. assert (k < List.length (inner t))%nat by (apply nth_error_Some; congruence).
  change (2 ^ 27) with 134217728 in L. change (2 ^ 28) with 268435456. lia.
Qed.

Lemma prefix_nth {A} (a : list A) : forall b, (forall k x, nth_error a k = Some x -> nth_error b k = Some x) -> prefix a b.
Proof.
  induction a as [|x a IH]; intros b H; [now exists b|]. pose proof (H 0%nat x eq_refl) as H0. destruct b as [|y b]; [discriminate|].
  injection H0 as ->. destruct (IH b) as [r ->]; [intros k z Hz; exact (H (S k) z Hz)|]. now exists r.
Qed.
Lemma comparable_nth {A} (a : list A) : forall b, (forall k x y, nth_error a k = Some x -> nth_error b k = Some y -> x = y) ->
  prefix a b \/ prefix b a.
Proof.
  induction a as [|x a IH]; intros b H; [left; now exists b|]. destruct b as [|y b]; [right; now exists (x :: a)|].
  pose proof (H 0%nat x y eq_refl eq_refl) as ->. destruct (IH b) as [[r ->]|[r ->]]; [intros k u v; exact (H (S k) u v)| |];
    [left|right]; now exists r.
Qed.

Lemma indexed_ok limit i : i < 2 ^ 28 -> Forall (op_ok limit) [Send (Indexed i)].
Proof.
  intros H. constructor; [|constructor]. split; [|exact Logic.I]. cbn [input_ok].
  change (2 ^ 28) with 268435456 in H. change (2 ^ 32) with 4294967296. lia.
Qed.

Lemma complete_prefix m m' t d : wf t -> wf (dtable d) -> complete m m' t d -> prefix (inner t) (inner (dtable d)).
Proof.
  intros W Wd H. apply prefix_nth. intros k e E. pose proof (index_in_range t k e W E) as Hi.
  assert (El : lookup (inner t) (62 + N.of_nat k) = Some e) by (rewrite lookup_dynamic, Nat2N.id; exact E).
  destruct (reference_written m t _ e W Hi El) as (bs & Ew & Hb & Hw & Eh).
  destruct (H _ (indexed_ok (dlimit d) _ Hi)) as (d' & n & Ed). rewrite Ew, Eh in Ed.
  pose proof (decode_reference m' d bs _ [] Wd Hb Hw) as R. rewrite Ed, lookup_dynamic, Nat2N.id in R. cbn [answer] in R.
  destruct (nth_error (inner (dtable d)) k) as [[n' v']|]; [|discriminate R]. injection R as R1 R2 _. destruct e as [n0 v0]. cbn in R1, R2. congruence.
Qed.
Lemma truthful_comparable m m' t d : wf t -> wf (dtable d) -> truthful m m' t d -> comparable t (dtable d).
Proof.
  intros W Wd H. apply comparable_nth. intros k e e' E E'. pose proof (index_in_range t k e W E) as Hi.
  assert (El : lookup (inner t) (62 + N.of_nat k) = Some e) by (rewrite lookup_dynamic, Nat2N.id; exact E).
  destruct (reference_written m t _ e W Hi El) as (bs & Ew & Hb & Hw & Eh).
  pose proof (decode_reference m' d bs _ [] Wd Hb Hw) as R. rewrite lookup_dynamic, Nat2N.id, E' in R.
  destruct (hdecode m' d bs []) as [[[d' rest] got] v] eqn:Ed. cbn [answer] in R. destruct e' as [n' v'].
  injection R as _ R _. cbn [app] in R. subst got.
  rewrite <- Ew in Ed. destruct (H _ (indexed_ok (dlimit d) _ Hi) d' rest _ v Ed) as [x X]. rewrite Eh in X. destruct e as [n0 v0].
  cbn [fst snd app] in X. injection X as -> -> _. reflexivity.
Qed.

(* ------------------------------------------------------------------ *)
(* Literals to be stored, as octets. *)
Definition plain_store (e : field_line) : op := Send (Literal (fst e) (snd e) 4).
Definition plain_repr (e : field_line) : repr := RLiteral WithIndexing (NameLiteral false (fst e)) false (snd e).
Definition storable (e : field_line) : Prop :=
  bytes (fst e) /\ bytes (snd e) /\ N.of_nat (List.length (fst e)) <= MAX_STRING /\ N.of_nat (List.length (snd e)) <= MAX_STRING.
Lemma plain_store_ok limit l : Forall storable l -> Forall (op_ok limit) (map plain_store l).
Proof.
  intros H. apply Forall_map. eapply Forall_impl; [|exact H]. intros e (B1 & B2 & L1 & L2).
  unfold plain_store. cbn [op_ok input_ok sendable]. change (N.testbit 4 0) with false. change (N.testbit 4 1) with false.
  cbn [coded_length]. repeat split; auto.
Qed.
Lemma plain_written m l : forall t dst, wf t -> Forall storable l ->
  exists prs, run_ops m t dst (map plain_store l) =
      (conc (fold_left insert l (abs t)), dst ++ wire_octets prs, snd (meaning (abs t) (map plain_store l))) /\
    wires 5 code_padding prs /\ bytes (wire_octets prs) /\ reprs prs = map plain_repr l /\ wf (conc (fold_left insert l (abs t))) /\
    headers (abs t) (map plain_store l) = map (fun e => (fst e, snd e, 4)) l.
Proof.
  induction l as [|e l IH]; intros t dst W H.
  - exists []. cbn. rewrite conc_abs, app_nil_r by exact W. repeat split; try constructor; apply W.
  - inversion H as [|? ? H1 H2]; subst. cbn [map].
    assert (R : chosen (inner t) (Literal (fst e) (snd e) 4) (plain_repr e)).
    { apply (ch_literal (inner t) (fst e) (snd e) 4). reflexivity. }
    destruct H1 as (B1 & B2 & L1 & L2).
    assert (Hs : strings_within MAX_STRING (plain_repr e)) by (cbn; auto).
    assert (Hin : input_ok (Literal (fst e) (snd e) 4)) by (cbn; repeat split; auto).
    destruct (hencode_ok m t _ dst _ W Hin R (within_mono _ _ _ max_string_u32 Hs)) as (bs & d1 & h1 & Eh & Hi & Hwd & _ & H5 & Hbs).
    assert (d1 = insert (abs t) e).
    { specialize (Hi 0). cbn [plain_repr interp resolve] in Hi. injection Hi as <- _. now destruct e. }
    subst d1. destruct (IH (conc (insert (abs t) e)) (dst ++ bs) Hwd H2) as (prs & Er & Hp & Hb & Ep & Wf & Eh2).
    rewrite abs_conc in *. exists ((bs, plain_repr e) :: prs). split; [|split; [|split; [|split; [|split]]]].
    + unfold plain_store at 1. cbn [run_ops]. rewrite Eh, Er. cbn [fold_left]. unfold wire_octets. cbn [map concat fst].
      rewrite app_assoc. f_equal. unfold plain_store at 2. cbn [meaning field_of flag_used].
      change (N.testbit 4 4) with false. cbn [andb]. change (kind_flag (kind_of 4)) with 4. change (4 =? 4) with true. cbv iota zeta.
      rewrite <- (surjective_pairing e). destruct (meaning (insert (abs t) e) (map plain_store l)) as [[a b] c]. reflexivity.
    + constructor; [|exact Hp]. cbn [fst snd]. eapply repr_wire_pad; [apply rfc_code_padding|]. apply H5. exact Hs.
    + unfold wire_octets. cbn [map concat fst]. apply Forall_app. split; [exact Hbs|exact Hb].
    + cbn [reprs map snd]. fold (reprs prs). now rewrite Ep.
    + exact Wf.
    + unfold headers in *. unfold plain_store at 1. cbn [meaning field_of flag_used].
      change (N.testbit 4 4) with false. cbn [andb]. change (kind_flag (kind_of 4)) with 4. change (4 =? 4) with true. cbv iota zeta.
      rewrite <- (surjective_pairing e). destruct (meaning (insert (abs t) e) (map plain_store l)) as [[a b] c]. cbn [fst snd] in *. now rewrite Eh2.
Qed.
Lemma plain_interp limit l : forall d, interp_all limit d (map plain_repr l) = Some (fold_left insert l d, map (fun e => (fst e, snd e, 4)) l).
Proof.
  induction l as [|[n v] l IH]; intros d; [reflexivity|].
  cbn [map interp_all plain_repr interp resolve fold_left fst snd]. rewrite IH. reflexivity.
Qed.
Lemma insert_all l : forall d, size (entries d) <= max_size d -> fold_left insert l d = mkdyn (fit (max_size d) (rev l ++ entries d)) (max_size d).
Proof.
  induction l as [|e l IH]; intros d H; cbn [fold_left rev List.app].
  - rewrite fit_all by exact H. now destruct d.
  - rewrite IH; [|apply fit_size]. unfold insert. cbn [entries max_size]. rewrite fit_app_fit by lia. now rewrite <- app_assoc.
Qed.

Lemma written_app m t ops1 ops2 t1 out1 rs1 : wf t -> Forall op_typed (ops1 ++ ops2) ->
  run_ops m t [] ops1 = (t1, out1, rs1) -> written m t (ops1 ++ ops2) = out1 ++ written m t1 ops2.
Proof.
  intros W T E. assert (G : forall ops t dst, run_ops m t dst (ops ++ ops2) =
    let '(a, b, c) := run_ops m t dst ops in let '(a', b', c') := run_ops m a b ops2 in (a', b', c ++ c')).
  { clear. induction ops as [|o ops IH]; intros t dst; [cbn; now destruct (run_ops m t dst ops2) as [[? ?] ?]|].
    cbn [List.app]. rewrite !run_ops_cons. destruct (op_step m t dst o) as [[t1 dst1] r]. rewrite IH.
    destruct (run_ops m t1 dst1 ops) as [[a b] c]. destruct (run_ops m a b ops2) as [[a' b'] c']. reflexivity. }
  unfold written. rewrite G, E. apply Forall_app in T. destruct T as [T1 T2].
  assert (W1 : wf t1). { pose proof (run_ops_wf m ops1 t [] W T1) as X. rewrite E in X. apply X. }
  destruct (run_ops_same m m ops2 t1 out1 [] W1 T2) as (t' & o & rs & E1 & E2). rewrite E1, E2. reflexivity.
Qed.
Lemma op_ok_typed limit o : limit < 2 ^ 32 -> op_ok limit o -> op_typed o.
Proof.
  intros L H. destruct o as [f|n]; cbn [op_ok op_typed] in *; [apply H|]. apply N.le_lt_trans with limit; [apply H|exact L].
Qed.
Lemma headers_app d ops1 ops2 : headers d (ops1 ++ ops2) = headers d ops1 ++ headers (table_after d ops1) ops2.
Proof.
  revert d. induction ops1 as [|o ops1 IH]; intros d; [reflexivity|]. unfold headers, table_after in *. cbn [List.app]. rewrite !meaning_cons.
  destruct (op_meaning d o) as [[d1 h] r]. specialize (IH d1).
  destruct (meaning d1 (ops1 ++ ops2)) as [[a b] c]. destruct (meaning d1 ops1) as [[a' b'] c']. cbn [fst snd] in *.
  now rewrite IH, app_assoc.
Qed.

Lemma fit_cut k : forall max l, max = size k -> fit max (k ++ l) = k.
Proof.
  induction k as [|e k IH]; intros max l ->; cbn [size List.app fit].
  - destruct l as [|e l]; [reflexivity|]. now apply fit_tiny.
  - rewrite (proj2 (N.leb_le _ _)) by lia. f_equal. apply IH. lia.
Qed.
Lemma hdecode_onto m d b dst : wf (dtable d) -> bytes b -> hdecode m d b dst =
  let '((d', rest, got), v) := hdecode m d b [] in ((d', rest, dst ++ got), v).
Proof.
  intros W B. destruct (hdecode_total m d b [] W B) as (prs & rest & a & hs & s & Eb & Hp & Hi & He & Hw & ED).
  rewrite ED. cbn [List.app]. rewrite Eb in B |- *. now apply hdecode_ok.
Qed.

(* Filling the encoder's table to the last octet. *)
Theorem complete_max m m' t d : wf t -> wf (dtable d) -> dlimit d < 2 ^ 32 -> complete m m' t d ->
  dmax t <= dmax (dtable d) \/ dmax t < 32.
Proof.
  intros W Wd Hl H. destruct (N.lt_ge_cases (dmax t) 32) as [|Hge]; [now right|]. left.
  destruct (N.le_gt_cases (dmax t) (dmax (dtable d))) as [|Hlt]; [assumption|exfalso].
  set (M := dmax t) in *. set (q := N.to_nat (M / 32 - 1)). set (r := M mod 32).
  assert (Hr : r < 32) by (apply N.mod_lt; lia).
  assert (HM : M = 32 * N.of_nat (S q) + r).
  { unfold q, r. pose proof (N.div_mod M 32). assert (1 <= M / 32) by (apply N.div_le_lower_bound; lia). lia. }
  set (l := rev (filled q r)).
  assert (St : Forall storable l).
  { apply Forall_forall. intros e He. unfold l in He. apply in_rev in He. unfold filled in He. apply in_app_or in He.
    destruct He as [He|[<-|[]]].
    - apply repeat_spec in He. subst e. repeat split; try constructor; cbn; lia.
    - repeat split; cbn [fst snd]; try constructor; [apply repeat_bytes|cbn; lia|]. rewrite repeat_length, N2Nat.id. unfold MAX_STRING. lia. }
  destruct (plain_written m l t [] W St) as (prs & Er & Hp & Hb & Ep & W1 & Eh). cbn [List.app] in Er.
  set (t1 := conc (fold_left insert l (abs t))) in *.
  pose proof (hdecode_ok m' d prs [] (fold_left insert l (abs (dtable d))) (map (fun e => (fst e, snd e, 4)) l) Done [] Wd) as Ed.
  rewrite app_nil_r, Ep in Ed. specialize (Ed Hb Hp (plain_interp _ _ _) (ends_done _ _)). cbn [List.app stop_outcome] in Ed.
  set (d1 := set_table d (conc (fold_left insert l (abs (dtable d))))) in *.
  assert (Wd1 : wf (dtable d1)).
  { cbn [d1 dtable set_table]. apply (interp_all_wf (dlimit d) prs (abs (dtable d)) _ (map (fun e => (fst e, snd e, 4)) l)); auto.
    - unfold wfd. now rewrite conc_abs.
    - rewrite Ep. apply plain_interp. }
  (* the pair is still complete *)
  assert (C1 : complete m m' t1 d1).
  { intros ops Ho. change (dlimit d1) with (dlimit d) in Ho.
    assert (Hall : Forall (op_ok (dlimit d)) (map plain_store l ++ ops)) by (apply Forall_app; split; [now apply plain_store_ok|exact Ho]).
    destruct (H _ Hall) as (d' & n & E).
    assert (T : Forall op_typed (map plain_store l ++ ops)) by (eapply Forall_impl; [|exact Hall]; intros o; now apply op_ok_typed).
    rewrite (written_app m t (map plain_store l) ops _ _ _ W T Er) in E.
    assert (HB : bytes (wire_octets prs ++ written m t1 ops)).
    { apply Forall_app. split; [exact Hb|]. destruct (session_ok m (dlimit d) ops t1 [] W1 Hl Ho) as (out & ? & ? & ? & Hrun & _ & _ & _ & Hbo & _).
      unfold written. rewrite Hrun. exact Hbo. }
    destruct (hdecode_concat m' m' m' d (wire_octets prs) (written m t1 ops) [] _ _ _ _ Wd HB Ed) as [_ E2]. rewrite E2 in E.
    rewrite headers_app, Eh in E.
    assert (Ea : table_after (abs t) (map plain_store l) = abs t1).
    { unfold table_after. destruct (session_ok m (dlimit d) (map plain_store l) t [] W Hl) as (o' & p' & d2 & h2 & Hrun & Hme & _);
        [now apply plain_store_ok|]. rewrite Er in Hrun. pose proof (f_equal (fun x => fst (fst x)) Hrun) as X. cbn [fst] in X.
      rewrite Hme. cbn [fst]. rewrite X. now rewrite abs_conc. }
    rewrite Ea in E.
    assert (Hbo : bytes (written m t1 ops)) by (apply Forall_app in HB; apply HB).
    rewrite (hdecode_onto m' d1 (written m t1 ops) (map (fun e => (fst e, snd e, 4)) l) Wd1 Hbo) in E.
    destruct (hdecode m' d1 (written m t1 ops) []) as [[[d2 rest2] got2] v2] eqn:E3. cbn [fst snd] in E.
    injection E as E4 E5 E6 E7. apply app_inv_head in E6. subst rest2 got2. destruct v2; try discriminate E7. eauto. }
  pose proof (complete_prefix m m' t1 d1 W1 Wd1 C1) as [x X].
  assert (I1 : inner t1 = filled q r).
  { unfold t1. rewrite insert_all by apply W. cbn [conc inner abs max_size entries]. unfold l. rewrite rev_involutive.
    fold M. rewrite fit_cut by (rewrite size_filled; lia). reflexivity. }
  assert (Sz : size (inner (dtable d1)) <= dmax (dtable d)).
  { cbn [d1 dtable set_table]. rewrite insert_all by apply Wd. cbn [conc inner abs max_size entries]. apply fit_size. }
  rewrite X, size_app, I1, size_filled in Sz. lia.
Qed.

Theorem complete_iff m m' t d : wf t -> wf (dtable d) -> dlimit d < 2 ^ 32 ->
  (complete m m' t d <-> covers (dtable d) t).
Proof.
  intros W Wd Hl. split.
  - intros H. split; [exact (complete_prefix m m' t d W Wd H)|exact (complete_max m m' t d W Wd Hl H)].
  - intros H ops Ho. destruct (covers_session m m' ops d t [] W Wd Hl Ho H) as (t' & out & d' & n & Er & Ed & _).
    unfold written. rewrite Er. cbn [fst snd]. rewrite Ed. eauto.
Qed.
Theorem truthful_iff m m' t d : wf t -> wf (dtable d) -> dlimit d < 2 ^ 32 ->
  (truthful m m' t d <-> comparable t (dtable d)).
Proof.
  intros W Wd Hl. split; [exact (truthful_comparable m m' t d W Wd)|].
  intros H ops Ho d0 rest0 got0 v0 E.
  destruct (comparable_session m m' ops d t [] W Wd Hl Ho H) as (t' & out & d' & rest & hs1 & hs2 & v & Er & Ed & Eh & _).
  unfold written in E. rewrite Er in E. cbn [fst snd] in E. rewrite Ed in E. injection E as _ _ <- _. rewrite Eh. now exists hs2.
Qed.
