(* Flag bits that matter, and tables without duplicates. *)
From Verif Require Import Base HuffTables HuffModel HuffSpec HuffDerived Leb HpackStatic HpackModel
  HpackSpec HpackApi HpackInt HpackStr HpackTab HpackDec HpackEnc HpackDerived HpackMore.
Open Scope list_scope.
Open Scope N_scope.

(* ------------------------------------------------------------------ *)
(* Specification: two flag octets that ask for the same thing.  0x4 takes precedence
   over 0x8; the name's Huffman flag 0x1 and the best-format flag 0x10 concern only
   literals; 0x20, 0x40 and 0x80 mean nothing. *)
Definition same_kind (fl fl' : N) : Prop :=
  N.testbit fl 2 = N.testbit fl' 2 /\ (N.testbit fl 2 = true \/ N.testbit fl 3 = N.testbit fl' 3).
Definition same_request (f f' : encoder_input) : Prop :=
  match f, f' with
  | Indexed i, Indexed i' => i = i'
  | IndexedName i v fl, IndexedName i' v' fl' =>
      i = i' /\ v = v' /\ same_kind fl fl' /\ N.testbit fl 1 = N.testbit fl' 1
  | Literal n v fl, Literal n' v' fl' =>
      n = n' /\ v = v' /\ same_kind fl fl' /\ N.testbit fl 1 = N.testbit fl' 1 /\
      N.testbit fl 0 = N.testbit fl' 0 /\ N.testbit fl 4 = N.testbit fl' 4
  | _, _ => False
  end.

(* A session that never asks to store a header without the best-format flag. *)
Definition tidy (o : op) : Prop :=
  match o with
  | Send (Literal _ _ fl) => N.testbit fl 2 = true -> N.testbit fl 4 = true
  | Send (IndexedName _ _ fl) => N.testbit fl 2 = false
  | _ => True
  end.

(* ------------------------------------------------------------------ *)
Definition flags_lt (f : encoder_input) : Prop :=
  match f with Indexed _ => True | IndexedName _ _ fl | Literal _ _ fl => fl < 256 end.

Lemma indexed_name_same m t i v fl fl' dst : fl < 256 -> fl' < 256 -> same_kind fl fl' ->
  N.testbit fl 1 = N.testbit fl' 1 -> encode_indexed_name m t i v fl dst = encode_indexed_name m t i v fl' dst.
Proof.
  intros L L' [H2 H3] H1. unfold encode_indexed_name.
  destruct (has_flag_bits fl L) as (_ & A1 & A2 & A3 & _). destruct (has_flag_bits fl' L') as (_ & B1 & B2 & B3 & _).
  rewrite A1, A2, A3, B1, B2, B3, <- H1, <- H2.
  destruct (N.testbit fl 2); [reflexivity|]. destruct H3 as [H3|H3]; [discriminate H3|]. rewrite <- H3. reflexivity.
Qed.

Lemma literal_same m t n v fl fl' dst : fl < 256 -> fl' < 256 -> same_kind fl fl' ->
  N.testbit fl 1 = N.testbit fl' 1 -> N.testbit fl 0 = N.testbit fl' 0 ->
  encode_literal m t n v fl dst = encode_literal m t n v fl' dst.
Proof.
  intros L L' [H2 H3] H1 H0. unfold encode_literal.
  destruct (has_flag_bits fl L) as (A0 & A1 & A2 & A3 & _). destruct (has_flag_bits fl' L') as (B0 & B1 & B2 & B3 & _).
  rewrite A0, A1, A2, A3, B0, B1, B2, B3, <- H0, <- H1, <- H2.
  destruct (N.testbit fl 2); [reflexivity|]. destruct H3 as [H3|H3]; [discriminate H3|]. rewrite <- H3. reflexivity.
Qed.

Theorem same_request_ok m t f f' dst : flags_lt f -> flags_lt f' -> same_request f f' ->
  hencode m t f dst = hencode m t f' dst.
Proof.
  destruct f as [i|i v fl|n v fl], f' as [i'|i' v' fl'|n' v' fl']; cbn [flags_lt same_request]; intros L L' H;
    try contradiction.
  - subst i'. reflexivity.
  - destruct H as (<- & <- & K & H1). cbn [hencode]. apply indexed_name_same; assumption.
  - destruct H as (<- & <- & K & H1 & H0 & H4). cbn [hencode].
    destruct (has_flag_bits fl L) as (_ & _ & _ & _ & A4). destruct (has_flag_bits fl' L') as (_ & _ & _ & _ & B4).
    rewrite A4, B4, <- H4, (literal_same m t n v fl fl' dst L L' K H1 H0).
    destruct (N.testbit fl 4); [|reflexivity].
    destruct (table_find m t n v) as [[[i [|]]|]|e| |]; cbn; try reflexivity.
    apply indexed_name_same; assumption.
Qed.

(* ------------------------------------------------------------------ *)
(* No duplicates. *)
Fixpoint distinct (l : list field_line) : bool :=
  match l with [] => true | e :: l' => (if in_dec line_eq_dec e l' then false else true) && distinct l' end.
Lemma distinct_ok l : distinct l = true -> NoDup l.
Proof.
  induction l as [|e l IH]; cbn [distinct]; [constructor|]. intros H. apply andb_prop in H as [H1 H2].
  destruct (in_dec line_eq_dec e l) as [I|I]; [discriminate H1|]. constructor; auto.
Qed.
Lemma static_nodup : NoDup rfc_static.
Proof. apply distinct_ok. vm_compute. reflexivity. Qed.

Lemma nodup_prefix {A} (s k l : list A) : prefix k l -> NoDup (s ++ l) -> NoDup (s ++ k).
Proof.
  intros [x ->]. rewrite app_assoc. generalize (s ++ k). intros a H.
  induction a as [|e a IH]; [constructor|]. inversion H as [|? ? Hi Hn]; subst. constructor; [|auto].
  intros X. apply Hi. apply in_or_app. auto.
Qed.

Lemma lookup_in l i e : lookup l i = Some e -> In e (rfc_static ++ l).
Proof. unfold lookup. destruct (i =? 0); [discriminate|]. apply nth_error_In. Qed.
Lemma in_lookup l e : In e (rfc_static ++ l) -> exists i, lookup l i = Some e.
Proof.
  intros H. apply In_nth_error in H as [n H]. exists (N.of_nat n + 1). unfold lookup.
  replace (N.of_nat n + 1 =? 0) with false by lia.
  replace (N.to_nat (N.of_nat n + 1 - 1)) with n by lia. exact H.
Qed.

Lemma interp_nodup limit d f r d' hs : NoDup (rfc_static ++ entries d) -> chosen (entries d) f r ->
  tidy (Send f) -> interp limit d r = inl (d', hs) -> NoDup (rfc_static ++ entries d').
Proof.
  intros Hn Hc Ht Hi.
  assert (Ins : forall e, ~ In e (rfc_static ++ entries d) -> NoDup (rfc_static ++ entries (insert d e))).
  { intros e He. cbn [insert entries]. eapply nodup_prefix; [apply fit_prefix|].
    apply NoDup_Add with (a := e) (l := rfc_static ++ entries d); [|split; assumption].
    apply Add_app. }
  destruct Hc as [i e He|i v fl e He|n v fl H4|n v fl found H4 Hf]; cbn [tidy] in Ht.
  - cbn [interp] in Hi. rewrite He in Hi. destruct e. injection Hi as <- _. exact Hn.
  - cbn [interp resolve] in Hi. rewrite He in Hi. cbn in Hi. unfold kind_of in Hi. rewrite Ht in Hi.
    destruct (N.testbit fl 3); injection Hi as <- _; exact Hn.
  - cbn [interp resolve] in Hi. unfold kind_of in Hi. destruct (N.testbit fl 2); [rewrite Ht in H4 by reflexivity; discriminate|].
    destruct (N.testbit fl 3); injection Hi as <- _; exact Hn.
  - assert (Fresh : (forall j, lookup (entries d) j <> Some (n, v)) -> ~ In (n, v) (rfc_static ++ entries d)).
    { intros H X. apply in_lookup in X as [j X]. exact (H j X). }
    assert (Lit : forall nr h, interp limit d (RLiteral (kind_of fl) nr h v) = inl (d', hs) ->
              resolve d nr = Some n -> (forall j, lookup (entries d) j <> Some (n, v)) -> NoDup (rfc_static ++ entries d')).
    { intros nr h E Hr Hx. cbn [interp] in E. rewrite Hr in E. injection E as <- _.
      destruct (kind_of fl); [apply Ins, Fresh, Hx|exact Hn|exact Hn]. }
    destruct found as [[i [|]]|]; cbn [find_spec] in Hf.
    + destruct Hf as [Hf _]. cbn [interp] in Hi. rewrite Hf in Hi. injection Hi as <- _. exact Hn.
    + destruct Hf as ((w & Hw) & _ & Hx). eapply Lit; [exact Hi| |exact Hx].
      cbn [resolve]. rewrite Hw. reflexivity.
    + eapply Lit; [exact Hi|reflexivity|]. intros j. apply Hf.
Qed.

Lemma op_nodup m t dst o : wf t -> op_typed o -> tidy o -> NoDup (rfc_static ++ inner t) ->
  let t' := fst (fst (op_step m t dst o)) in wf t' /\ NoDup (rfc_static ++ inner t').
Proof.
  intros Hw Ho Ht Hn. destruct o as [f|n]; cbn [op_step op_typed] in *.
  - split; [apply hencode_wf; assumption|].
    destruct (hencode_cases m t f dst Hw Ho) as [[_ ->]|(r & Hr & [[_ (bs & d' & hs & -> & Hi & _)]|[_ (d' & hs & j & -> & _ & Hi & _)]])];
      cbn [fst]; [exact Hn| |].
    + exact (interp_nodup 0 (abs t) f r d' hs Hn Hr Ht (Hi 0)).
    + exact (interp_nodup 0 (abs t) f r d' hs Hn Hr Ht (Hi 0)).
  - destruct (encoder_update_ok m t n dst Hw Ho) as (bs & E & _ & _ & _ & Hw'). rewrite E. cbn [fst].
    split; [exact Hw'|]. change (inner (conc (resize (abs t) n))) with (fit n (inner t)). eapply nodup_prefix; [apply fit_prefix|exact Hn].
Qed.

Theorem session_nodup m ops : forall t dst, wf t -> Forall op_typed ops -> Forall tidy ops ->
  NoDup (rfc_static ++ inner t) -> NoDup (rfc_static ++ inner (fst (fst (run_ops m t dst ops)))).
Proof.
  induction ops as [|o ops IH]; intros t dst Hw Hty Htd Hn; [exact Hn|].
  inversion Hty as [|? ? T1 T2]; subst. inversion Htd as [|? ? D1 D2]; subst.
  rewrite run_ops_cons. destruct (op_nodup m t dst o Hw T1 D1 Hn) as [W1 N1].
  destruct (op_step m t dst o) as [[t1 dst1] r1]. cbn [fst] in *.
  pose proof (IH t1 dst1 W1 T2 D2 N1) as H. destruct (run_ops m t1 dst1 ops) as [[? ?] ?]. exact H.
Qed.

Lemma nodup_index t i j e : wf t -> NoDup (rfc_static ++ inner t) ->
  lookup (inner t) i = Some e -> lookup (inner t) j = Some e -> i = j.
Proof.
  intros _ Hn. unfold lookup. destruct (i =? 0) eqn:Ei; [discriminate|]. destruct (j =? 0) eqn:Ej; [discriminate|].
  intros Hi Hj. assert (N.to_nat (i - 1) = N.to_nat (j - 1)); [|lia].
  apply (NoDup_nth_error (rfc_static ++ inner t)); [exact Hn| |congruence].
  apply nth_error_Some. congruence.
Qed.
