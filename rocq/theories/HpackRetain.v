(* How long a header field stays in the dynamic table (C87). *)
From Verif Require Import Base HuffTables HuffModel HuffSpec HuffCode HuffDecProofs HuffDerived HuffMore Leb HpackStatic HpackModel
  HpackSpec HpackApi HpackInt HpackStr HpackTab HpackDec HpackEnc HpackDerived HpackMore HpackMore2 HpackUnique HpackLength.
Open Scope list_scope.
Open Scope N_scope.

(* ------------------------------------------------------------------ *)
(* Specification vocabulary. *)

(* The headers of a list that were sent with incremental indexing (flags 0x4), newest first. *)
Definition stored (hs : list out_header) : list field_line :=
  rev (map fst (filter (fun h => snd h =? 4) hs)).
(* All headers ever stored, newest first, if the table held l before. *)
Definition timeline (l : list field_line) (hs : list out_header) : list field_line := stored hs ++ l.
(* Calls that do not change the size of the table. *)
Definition is_send (o : op) : Prop := match o with Send _ => True | Resize _ => False end.

(* A table t with bound max holds exactly what its history says: the k-th newest entry of
   all is available at index 62 + k as long as it and everything newer fit. *)
Definition retains (max : N) (t : table) (all : list field_line) : Prop :=
  dmax t = max /\
  forall k e, nth_error all k = Some e ->
    (size (firstn (S k) all) <= max -> table_get t (62 + N.of_nat k) = Some e) /\
    (max < size (firstn (S k) all) -> table_get t (62 + N.of_nat k) = None).

(* ------------------------------------------------------------------ *)
Lemma fit_fit max M l : max <= M -> fit max (fit M l) = fit max l.
Proof.
  revert max M. induction l as [|e l IH]; intros max M H; [reflexivity|]. cbn [fit].
  destruct (N.leb_spec (line_size e) M).
  - cbn [fit]. destruct (N.leb_spec (line_size e) max); [|reflexivity]. f_equal. apply IH. lia.
  - cbn [fit]. destruct (N.leb_spec (line_size e) max); [lia|reflexivity].
Qed.
Lemma fit_app_fit max M a l : max <= M -> fit max (a ++ fit M l) = fit max (a ++ l).
Proof.
  revert max. induction a as [|e a IH]; intros max H; [now apply fit_fit|]. cbn [fit app].
  destruct (line_size e <=? max); [|reflexivity]. f_equal. apply IH. lia.
Qed.

Lemma fit_nth max l k e : nth_error l k = Some e ->
  (size (firstn (S k) l) <= max -> nth_error (fit max l) k = Some e) /\
  (max < size (firstn (S k) l) -> nth_error (fit max l) k = None).
Proof.
  revert max k. induction l as [|x l IH]; intros max k H; [destruct k; discriminate|].
  destruct k as [|k]; cbn [nth_error] in H.
  - injection H as ->. cbn [firstn size fit]. split; intros L.
    + replace (line_size e <=? max) with true by (symmetry; apply N.leb_le; lia). reflexivity.
    + replace (line_size e <=? max) with false by (symmetry; apply N.leb_gt; lia). reflexivity.
  - change (firstn (S (S k)) (x :: l)) with (x :: firstn (S k) l). cbn [size fit].
    destruct (IH (max - line_size x) k H) as [A B]. split; intros L.
    + replace (line_size x <=? max) with true by (symmetry; apply N.leb_le; lia). cbn [nth_error]. apply A. lia.
    + destruct (N.leb_spec (line_size x) max); [|reflexivity]. cbn [nth_error]. apply B. lia.
Qed.

Lemma fit_retains t all : inner t = fit (dmax t) all -> retains (dmax t) t all.
Proof.
  intros E. split; [reflexivity|]. intros k e H. destruct (fit_nth (dmax t) all k e H) as [A B].
  assert (G : table_get t (62 + N.of_nat k) = nth_error (inner t) k).
  { rewrite get_lookup. unfold lookup. replace (62 + N.of_nat k =? 0) with false by (symmetry; apply N.eqb_neq; lia).
    replace (N.to_nat (62 + N.of_nat k - 1)) with (List.length rfc_static + k)%nat
      by (replace (List.length rfc_static) with 61%nat by reflexivity; lia).
    rewrite nth_error_app2 by lia. f_equal. lia. }
  rewrite G, E. split; auto.
Qed.

Lemma stored_app a b : stored (a ++ b) = stored b ++ stored a.
Proof. unfold stored. now rewrite filter_app, map_app, rev_app_distr. Qed.
Lemma stored_one e fl : stored [(e, fl)] = if fl =? 4 then [e] else [].
Proof. unfold stored. cbn [filter snd]. now destruct (fl =? 4). Qed.

(* One representation. *)
Lemma interp_retain limit d r d' hs : is_size r = false -> interp limit d r = inl (d', hs) -> size (entries d) <= max_size d ->
  max_size d' = max_size d /\ entries d' = fit (max_size d) (stored hs ++ entries d).
Proof.
  intros Hr E Hs. destruct r as [i|k nr h v|n]; cbn [is_size interp] in *; [| |discriminate].
  - destruct (lookup (entries d) i) as [[n v]|]; [|discriminate]. injection E as <- <-. split; [reflexivity|].
    change (n, v, 0) with ((n, v), 0). rewrite stored_one. cbn. symmetry. now apply fit_all.
  - destruct (resolve d nr) as [n|]; [|discriminate]. injection E as <- <-.
    change (n, v, kind_flag k) with ((n, v), kind_flag k). rewrite stored_one.
    destruct k; cbn; (split; [reflexivity|]); try reflexivity; symmetry; now apply fit_all.
Qed.

Lemma interp_all_retain limit rs : forall d d' hs, Forall (fun r => is_size r = false) rs ->
  interp_all limit d rs = Some (d', hs) -> size (entries d) <= max_size d ->
  max_size d' = max_size d /\ entries d' = fit (max_size d) (stored hs ++ entries d).
Proof.
  induction rs as [|r rs IH]; intros d d' hs Hr E Hs; cbn [interp_all] in E.
  - injection E as <- <-. split; [reflexivity|]. symmetry. now apply fit_all.
  - inversion Hr as [|? ? R1 R2]; subst. destruct (interp limit d r) as [[d1 h]|] eqn:E1; [|discriminate].
    destruct (interp_all limit d1 rs) as [[d2 hs2]|] eqn:E2; [|discriminate]. injection E as <- <-.
    destruct (interp_retain limit d r d1 h R1 E1 Hs) as [M1 L1].
    destruct (IH d1 d2 hs2 R2 E2) as [M2 L2]; [rewrite L1, M1; apply fit_size|].
    split; [congruence|]. rewrite L2, M1, L1, stored_app, <- app_assoc. apply fit_app_fit. lia.
Qed.

(* The encoder. *)
Lemma op_retain d o d' h r : is_send o -> op_meaning d o = (d', h, r) -> size (entries d) <= max_size d ->
  max_size d' = max_size d /\ entries d' = fit (max_size d) (stored h ++ entries d).
Proof.
  intros Ho E Hs. destruct o as [f|n]; [|contradiction]. cbn [op_meaning] in E.
  destruct (field_of (entries d) f) as [[n v]|].
  - injection E as <- <- _. change (n, v, flag_used (entries d) f) with ((n, v), flag_used (entries d) f).
    rewrite stored_one. destruct (flag_used (entries d) f =? 4); cbn; (split; [reflexivity|]);
      [reflexivity | symmetry; now apply fit_all].
  - injection E as <- <- _. split; [reflexivity|]. symmetry. now apply fit_all.
Qed.

Lemma session_retain m ops : forall t dst t' dst' rs, wf t -> Forall op_typed ops -> Forall is_send ops ->
  run_ops m t dst ops = (t', dst', rs) -> no_overflow rs ->
  wf t' /\ dmax t' = dmax t /\ inner t' = fit (dmax t) (timeline (inner t) (snd (fst (meaning (abs t) ops)))).
Proof.
  induction ops as [|o ops IH]; intros t dst t' dst' rs Hw Hty Hse Hr Hno.
  - cbn [run_ops] in Hr. injection Hr as <- _ _. split; [exact Hw|]. split; [reflexivity|]. cbn.
    symmetry. apply fit_all. destruct Hw as (_ & H & _). exact H.
  - inversion Hty as [|? ? T1 T2]; subst. inversion Hse as [|? ? S1 S2]; subst. rewrite run_ops_cons in Hr.
    assert (N1 : snd (op_step m t dst o) <> Err EIntegerOverflow).
    { intros E. destruct (op_step m t dst o) as [[t1 dst1] r1]. cbn in E. subst r1.
      destruct (run_ops m t1 dst1 ops) as [[? ?] ?]. injection Hr as _ _ <-. apply Hno. now left. }
    destruct (op_step_ok m t dst o Hw T1 N1) as (d1 & h & res & Em & Hw1 & C).
    assert (E : exists bs, op_step m t dst o = ((conc d1, bs), res)).
    { destruct C as [(E & _)|(_ & bs & r & E & _)]; eauto. }
    destruct E as [bs E]. rewrite E in Hr. rewrite meaning_cons, Em.
    destruct (run_ops m (conc d1) bs ops) as [[t2 dst2] rs2] eqn:E2. injection Hr as <- <- <-.
    assert (N2 : no_overflow rs2) by (intros I; apply Hno; now right).
    destruct (IH (conc d1) bs t2 dst2 rs2 Hw1 T2 S2 E2 N2) as (W2 & M2 & L2). rewrite abs_conc in L2.
    destruct (op_retain (abs t) o d1 h res S1 Em) as [M1 L1]; [destruct Hw as (_ & H & _); exact H|].
    destruct (meaning d1 ops) as [[d2 hs2] r2]. cbn [fst snd] in *.
    cbn [conc dmax inner abs max_size entries] in *. split; [exact W2|]. split; [congruence|].
    rewrite L2, M1, L1. unfold timeline. rewrite stored_app, <- app_assoc. apply fit_app_fit. lia.
Qed.

Theorem encoder_retains m ops t dst t' dst' rs : wf t -> Forall op_typed ops -> Forall is_send ops ->
  run_ops m t dst ops = (t', dst', rs) -> no_overflow rs ->
  retains (dmax t) t' (timeline (inner t) (snd (fst (meaning (abs t) ops)))).
Proof.
  intros Hw Hty Hse Hr Hno. destruct (session_retain m ops t dst t' dst' rs Hw Hty Hse Hr Hno) as (_ & M & L).
  rewrite <- M in *. now apply fit_retains.
Qed.

(* The decoder. *)
Theorem decoder_retains m d prs rest d' hs s dst : wf (dtable d) ->
  bytes (wire_octets prs ++ rest) -> wires 5 code_padding prs -> Forall (fun p => is_size (snd p) = false) prs ->
  interp_all (dlimit d) (abs (dtable d)) (reprs prs) = Some (d', hs) -> ends (dlimit d) d' rest s ->
  exists d1 o, hdecode m d (wire_octets prs ++ rest) dst = ((d1, rest, dst ++ hs), o) /\
    retains (dmax (dtable d)) (dtable d1) (timeline (inner (dtable d)) hs).
Proof.
  intros Hw Hb Hp Hz Hi He.
  exists (set_table d (conc d')), (stop_outcome s (counted prs)). split; [now apply hdecode_ok|].
  destruct (interp_all_retain (dlimit d) (reprs prs) (abs (dtable d)) d' hs) as [M L].
  - unfold reprs. now apply Forall_map.
  - exact Hi.
  - destruct Hw as (_ & H & _). exact H.
  - cbn [abs max_size entries] in *. rewrite <- M in *.
    change (max_size d') with (dmax (dtable (set_table d (conc d')))). apply fit_retains. exact L.
Qed.

(* Sending a stored field again. *)
Lemma int_octets_mono p a b : a <= b -> int_octets p a <= int_octets p b.
Proof.
  intros H. unfold int_octets. destruct (N.ltb_spec a (2 ^ p - 1)), (N.ltb_spec b (2 ^ p - 1)); try lia.
  assert (N.log2 (a - (2 ^ p - 1)) / 7 <= N.log2 (b - (2 ^ p - 1)) / 7); [|lia].
  apply N.div_le_mono; [lia|]. apply N.log2_le_mono. lia.
Qed.

Theorem sent_again m t k n v fl dst : wf t -> input_ok (Literal n v fl) -> N.testbit fl 4 = true ->
  table_get t (62 + k) = Some (n, v) ->
  exists i bs, hencode m t (Literal n v fl) dst = ((t, dst ++ bs), Ok tt) /\
    table_get t i = Some (n, v) /\ i <= 62 + k /\ repr_wire 6 rfc_padding bs (RIndexed i) /\
    N.of_nat (List.length bs) <= int_octets 7 (62 + k).
Proof.
  intros Hw Hi Hf Hg.
  destruct (@table_find_ok enc_error m t n v Hw) as (r & _ & Hr).
  pose proof (ch_best (inner t) n v fl r Hf Hr) as Hc. rewrite get_lookup in Hg.
  destruct r as [[i []]|]; cbn [find_spec] in Hr.
  - destruct Hr as [Hl Hmin]. assert (Hle : i <= 62 + k).
    { apply N.le_ngt. intros Hlt. exact (Hmin _ Hlt Hg). }
    destruct (hencode_ok m t (Literal n v fl) dst (RIndexed i) Hw Hi Hc I) as (bs & d' & hs & E & Hin & _ & H6 & _).
    specialize (Hin 0). cbn [interp] in Hin. change (entries (abs t)) with (inner t) in Hin. rewrite Hl in Hin. injection Hin as <- _.
    rewrite conc_abs in E by exact Hw. exists i, bs. split; [exact E|]. rewrite get_lookup. split; [exact Hl|].
    split; [exact Hle|]. split; [exact H6|].
    rewrite (hencode_octets m t _ dst (RIndexed i) bs t Hw Hi Hc I E). cbn [repr_octets]. now apply int_octets_mono.
  - destruct Hr as (_ & _ & Hn). now destruct (Hn _ Hg).
  - now destruct (Hr _ _ Hg).
Qed.

(* A field that was stored, and what came after it. *)
Theorem repeat_field m t n v fl1 fl2 ops dst t1 dst1 t2 dst2 rs dst3 :
  wf t -> input_ok (Literal n v fl1) -> N.testbit fl1 4 = false -> kind_of fl1 = WithIndexing ->
  Forall op_typed ops -> Forall is_send ops ->
  hencode m t (Literal n v fl1) dst = ((t1, dst1), Ok tt) -> run_ops m t1 dst1 ops = (t2, dst2, rs) -> no_overflow rs ->
  let after := stored (snd (fst (meaning (abs t1) ops))) in
  line_size (n, v) + size after <= dmax t ->
  fl2 < 256 -> N.testbit fl2 4 = true ->
  exists i bs, hencode m t2 (Literal n v fl2) dst3 = ((t2, dst3 ++ bs), Ok tt) /\
    table_get t2 i = Some (n, v) /\ i <= 62 + N.of_nat (List.length after) /\
    repr_wire 6 rfc_padding bs (RIndexed i) /\
    N.of_nat (List.length bs) <= int_octets 7 (62 + N.of_nat (List.length after)).
Proof.
  intros Hw Hi Hf1 Hk Hty Hse E1 Hr Hno after Hroom Hfl Hf2.
  pose proof (ch_literal (inner t) n v fl1 Hf1) as Hc. rewrite Hk in Hc.
  assert (Ht1 : wf t1 /\ dmax t1 = dmax t /\ inner t1 = fit (dmax t) ((n, v) :: inner t)).
  { destruct (hencode_cases m t (Literal n v fl1) dst Hw Hi) as [[Hn _]|(r & Hr' & [[_ H]|[_ H]])].
    - discriminate Hn.
    - rewrite (chosen_unique _ _ _ _ Hr' Hc) in H. destruct H as (bs & d' & hs & E & Hin & Hd & _).
      rewrite E in E1. injection E1 as <- _. specialize (Hin 0). cbn [interp resolve] in Hin. injection Hin as <- _.
      split; [exact Hd|]. split; reflexivity.
    - destruct H as (d' & hs & junk & E & _). rewrite E in E1. discriminate. }
  destruct Ht1 as (W1 & M1 & L1).
  destruct (session_retain m ops t1 dst1 t2 dst2 rs W1 Hty Hse Hr Hno) as (W2 & M2 & L2).
  fold after in L2. unfold timeline in L2. fold after in L2. rewrite L1, M1 in L2. rewrite fit_app_fit in L2 by lia.
  rewrite <- M1, <- M2 in L2. pose proof (fit_retains t2 _ L2) as [_ R].
  destruct (R (List.length after) (n, v)) as [G _].
  { rewrite nth_error_app2 by lia. now rewrite Nat.sub_diag. }
  assert (F : firstn (S (List.length after)) (after ++ (n, v) :: inner t) = after ++ [(n, v)]).
  { clear. induction after as [|x l IH]; [reflexivity|]. cbn [List.length app]. rewrite firstn_cons, IH. reflexivity. }
  rewrite F in G. assert (Sz : size (after ++ [(n, v)]) = size after + line_size (n, v)).
  { clear. induction after as [|x l IH]; cbn [app size]; lia. }
  rewrite Sz in G. apply sent_again; auto.
  - destruct Hi as (A & B & _). exact (conj A (conj B Hfl)).
  - apply G. lia.
Qed.
