(* Shortest output, decompression bounds, forwarding. *)
From Verif Require Import Base HuffTables HuffModel HuffSpec HuffDerived HuffMore Leb HpackStatic HpackModel
  HpackSpec HpackApi HpackInt HpackStr HpackTab HpackDec HpackEnc HpackDerived HpackMore.
Open Scope N_scope.

(* ------------------------------------------------------------------ *)
(* The encoder writes the shortest form of the representation it chose. *)
Lemma kind_int_min k i dst : i < 2 ^ 32 ->
  exists bi, encode_integer i (kind_bits k * 2 ^ kind_prefix k) (kind_prefix k) dst = (dst ++ bi, Ok tt) /\
    forall lim bi', int_wire lim (kind_prefix k) (kind_bits k) bi' i -> (length bi <= length bi')%nat.
Proof.
  intros Hi.
  destruct (encode_integer_ok i (kind_bits k * 2 ^ kind_prefix k) (kind_prefix k) dst (kp_ok k)) as (bi & He & _ & _ & _ & Hm).
  - destruct k; reflexivity.
  - exact Hi.
  - replace (kind_bits k * 2 ^ kind_prefix k / 2 ^ kind_prefix k) with (kind_bits k) in Hm by (destruct k; reflexivity).
    exists bi. auto.
Qed.

Lemma indexed_name_min m t i v fl dst e bs t' : wf t -> bytes v -> fl < 256 ->
  lookup (inner t) i = Some e -> coded_length (N.testbit fl 1) v <= U32_MAX ->
  encode_indexed_name m t i v fl dst = ((t', dst ++ bs), Ok tt) ->
  forall lim bs', repr_wire lim rfc_padding bs' (RLiteral (kind_of fl) (NameIndex i) (N.testbit fl 1) v) ->
  (length bs <= length bs')%nat.
Proof.
  intros Hw Hv Hf He Hl E lim bs' Hr.
  unfold encode_indexed_name in E. rewrite get_lookup, He in E. cbv zeta in E.
  destruct (has_flag_bits fl Hf) as (_ & F2 & F4 & F8 & _). rewrite F2, F4, F8 in E.
  pose proof (lookup_index_small t i e Hw He) as Hi.
  assert (Hi32 : i < 2 ^ 32) by (change (2 ^ 28) with 268435456 in Hi; change (2 ^ 32) with 4294967296; lia).
  destruct (kind_int_min (kind_of fl) i dst Hi32) as (bi & Hbi & Hmin).
  assert (E' : exists t1, with_table t1 (encode_string m v (N.testbit fl 1) (dst ++ bi)) = ((t', dst ++ bs), Ok tt)).
  { unfold kind_of in Hbi. destruct (N.testbit fl 2).
    - destruct (@table_insert_ok enc_error m t (fst e) v Hw) as [Ei _]. rewrite Ei in E. cbn [bindd] in E.
      change (kind_bits WithIndexing * 2 ^ kind_prefix WithIndexing) with 64 in Hbi. cbn [kind_prefix] in Hbi.
      rewrite Hbi in E. eexists. exact E.
    - destruct (N.testbit fl 3).
      + change (kind_bits NeverIndexed * 2 ^ kind_prefix NeverIndexed) with 16 in Hbi. cbn [kind_prefix] in Hbi.
        rewrite Hbi in E. eexists. exact E.
      + change (kind_bits WithoutIndexing * 2 ^ kind_prefix WithoutIndexing) with 0 in Hbi. cbn [kind_prefix] in Hbi.
        rewrite Hbi in E. eexists. exact E. }
  clear E. destruct E' as (t1 & E).
  destruct (encode_string_ok m v (N.testbit fl 1) (dst ++ bi) Hv) as [Hok _].
  destruct (Hok Hl) as (bv & Ev & _ & _ & Hvmin). rewrite Ev in E. cbn [with_table] in E.
  injection E as _ E. rewrite <- app_assoc in E. apply app_inv_head in E. subst bs.
  inversion Hr as [|k0 bi' i0 hv0 bv' v0 H1 H2 H3| |]; subst. rewrite !app_length.
  pose proof (Hmin _ _ H1). pose proof (Hvmin _ _ H3). lia.
Qed.

Lemma literal_min m t n v fl dst bs t' : wf t -> bytes n -> bytes v -> fl < 256 ->
  coded_length (N.testbit fl 0) n <= U32_MAX -> coded_length (N.testbit fl 1) v <= U32_MAX ->
  encode_literal m t n v fl dst = ((t', dst ++ bs), Ok tt) ->
  forall lim bs', repr_wire lim rfc_padding bs'
    (RLiteral (kind_of fl) (NameLiteral (N.testbit fl 0) n) (N.testbit fl 1) v) ->
  (length bs <= length bs')%nat.
Proof.
  intros Hw Hn Hv Hf Hln Hlv E lim bs' Hr. unfold encode_literal in E.
  destruct (has_flag_bits fl Hf) as (F1 & F2 & F4 & F8 & _). rewrite F1, F2, F4, F8 in E.
  assert (E' : exists t1 b, binds (with_table t1 (encode_string m n (N.testbit fl 0) (dst ++ [b])))
     (fun td' _ => with_table (fst td') (encode_string m v (N.testbit fl 1) (snd td'))) = ((t', dst ++ bs), Ok tt)).
  { destruct (N.testbit fl 2).
    - destruct (@table_insert_ok enc_error m t n v Hw) as [Ei _]. rewrite Ei in E. cbn [bindd binds fst snd] in E.
      eexists _, _. exact E.
    - destruct (N.testbit fl 3); cbn [binds fst snd] in E; eexists _, _; exact E. }
  clear E. destruct E' as (t1 & b & E).
  destruct (encode_string_ok m n (N.testbit fl 0) (dst ++ [b]) Hn) as [Hok _].
  destruct (Hok Hln) as (bn & En & _ & _ & Hnmin). rewrite En in E. cbn [with_table binds fst snd] in E.
  destruct (encode_string_ok m v (N.testbit fl 1) ((dst ++ [b]) ++ bn) Hv) as [Hok' _].
  destruct (Hok' Hlv) as (bv & Ev & _ & _ & Hvmin). rewrite Ev in E. cbn [with_table] in E.
  injection E as _ E. rewrite <- !app_assoc in E. apply app_inv_head in E. subst bs.
  inversion Hr as [| |k0 bi' hn0 bn' n0 hv0 bv' v0 H1 H2 H3|]; subst. rewrite !app_length.
  pose proof (Hnmin _ _ H2). pose proof (Hvmin _ _ H3). pose proof (int_wire_len _ _ _ _ _ H1). cbn [length]. lia.
Qed.

Lemma indexed_min t i dst e bs t' : wf t -> lookup (inner t) i = Some e ->
  encode_indexed t i dst = ((t', dst ++ bs), Ok tt) ->
  forall lim bs', repr_wire lim rfc_padding bs' (RIndexed i) -> (length bs <= length bs')%nat.
Proof.
  intros Hw He E lim bs' Hr. unfold encode_indexed in E. rewrite get_lookup, He in E.
  pose proof (lookup_index_small t i e Hw He) as Hi.
  assert (Hi32 : i < 2 ^ 32) by (change (2 ^ 28) with 268435456 in Hi; change (2 ^ 32) with 4294967296; lia).
  destruct (encode_integer_ok i 128 7 dst p7 eq_refl Hi32) as (b & Eb & _ & _ & _ & Hm). rewrite Eb in E.
  injection E as _ E. apply app_inv_head in E. subst b. inversion Hr; subst. eapply Hm; eauto.
Qed.

Theorem hencode_min m t f dst r bs t' : wf t -> input_ok f -> chosen (inner t) f r -> strings_within U32_MAX r ->
  hencode m t f dst = ((t', dst ++ bs), Ok tt) ->
  forall lim bs', repr_wire lim rfc_padding bs' r -> (length bs <= length bs')%nat.
Proof.
  intros Hw Hf Hc Hs E. destruct Hc as [i e He|i v fl e He|n v fl Hb|n v fl found Hb Hfind]; cbn [input_ok] in Hf; cbn [hencode] in E.
  - eapply indexed_min; eauto.
  - destruct Hf as (_ & Hv & Hfl), Hs as [Hs _]. eapply indexed_name_min; eauto.
  - destruct Hf as (Hn & Hv & Hfl), Hs as [Hs1 Hs2]. destruct (has_flag_bits fl Hfl) as (_ & _ & _ & _ & F).
    rewrite F, Hb in E. eapply literal_min; eauto.
  - destruct Hf as (Hn & Hv & Hfl). destruct (has_flag_bits fl Hfl) as (_ & _ & _ & _ & F). rewrite F, Hb in E.
    destruct (@table_find_ok enc_error m t n v Hw) as (r0 & Er & Hr0). rewrite Er in E. cbn [bindd] in E.
    assert (r0 = found) by (eapply find_spec_unique; [|exact Hr0|exact Hfind]; reflexivity). subst r0.
    destruct found as [[i []]|].
    + destruct Hfind as [Hi _]. pose proof (lookup_index_small t i _ Hw Hi) as Hi28.
      assert (W : wrap 32 i = i).
      { unfold wrap. apply N.mod_small. change (2 ^ 28) with 268435456 in Hi28. change (2 ^ 32) with 4294967296. lia. }
      rewrite W in E. eapply indexed_min; eauto.
    + destruct Hfind as [[v' Hi] _]. pose proof (lookup_index_small t i _ Hw Hi) as Hi28.
      assert (W : wrap 32 i = i).
      { unfold wrap. apply N.mod_small. change (2 ^ 28) with 268435456 in Hi28. change (2 ^ 32) with 4294967296. lia. }
      rewrite W in E. destruct Hs as [Hs _]. eapply indexed_name_min; eauto.
    + destruct Hs as [Hs1 Hs2]. eapply literal_min; eauto.
Qed.

(* ------------------------------------------------------------------ *)
(* Best format does not lengthen the output. *)
Lemma short_int p hi i : i < 2 ^ 14 -> exists bs, int_wire 6 p hi bs i /\ (length bs <= 3)%nat.
Proof.
  intros Hi. destruct (N.lt_ge_cases i (2 ^ p - 1)) as [H|H].
  - exists [hi * 2 ^ p + i]. split; [constructor; [exact H|lia]|cbn; lia].
  - destruct (encode_tail_ok 5 (i - (2 ^ p - 1)) []) as (t & _ & Ht & Hl).
    { change (2 ^ 14) with 16384 in Hi. change (128 ^ N.of_nat 6) with 4398046511104. lia. }
    assert (L : (length t <= 2)%nat).
    { destruct Hl as [->|Hl]; [lia|]. destruct (Nat.le_gt_cases (length t) 2) as [L|L]; [exact L|exfalso].
      assert (G : 128 ^ 2 <= 128 ^ N.of_nat (length t - 1)) by (apply N.pow_le_mono_r; lia).
      change (128 ^ 2) with 16384 in G. change (2 ^ 14) with 16384 in Hi. lia. }
    exists ((hi * 2 ^ p + (2 ^ p - 1)) :: t). split; [|cbn [length]; lia].
    replace i with (2 ^ p - 1 + (i - (2 ^ p - 1))) by lia. constructor; [exact Ht|lia].
Qed.

Lemma string_wire_two lim pad h bs s : string_wire lim pad h bs s -> s <> [] -> (2 <= length bs)%nat.
Proof.
  intros H Hs. assert (1 <= length s)%nat by (destruct s; [congruence|cbn; lia]).
  destruct H as [lb s H1|lb e s r H1 Hb Hsp _]; rewrite app_length; pose proof (int_wire_len _ _ _ _ _ H1).
  - lia.
  - pose proof (splits_length _ _ _ Hsp) as L. rewrite bits_of_bytes_length in L. lia.
Qed.

Lemma string_wire_one lim pad h bs s : string_wire lim pad h bs s -> (1 <= length bs)%nat.
Proof.
  intros H. destruct H as [lb s H1|lb e s r H1 Hb Hsp _]; rewrite app_length; pose proof (int_wire_len _ _ _ _ _ H1); lia.
Qed.

Lemma entries_count t : wf t -> 32 * N.of_nat (length (inner t)) <= dmax t.
Proof.
  intros (_ & H & _). pose proof (size_length (inner t)). lia.
Qed.

Lemma best_flag fl : fl < 256 -> N.testbit fl 4 = false ->
  fl + 16 < 256 /\ N.testbit (fl + 16) 4 = true /\ N.testbit (fl + 16) 0 = N.testbit fl 0 /\
  N.testbit (fl + 16) 1 = N.testbit fl 1 /\ kind_of (fl + 16) = kind_of fl.
Proof.
  intros H.
  pose (g := fun f => N.testbit f 4 || ((f + 16 <? 256) && N.testbit (f + 16) 4 &&
    Bool.eqb (N.testbit (f + 16) 0) (N.testbit f 0) && Bool.eqb (N.testbit (f + 16) 1) (N.testbit f 1) &&
    Bool.eqb (N.testbit (f + 16) 2) (N.testbit f 2) && Bool.eqb (N.testbit (f + 16) 3) (N.testbit f 3))).
  assert (G : g fl = true) by (apply (all_below 256 g); [vm_compute; reflexivity|exact H]).
  unfold g in G. intros E. rewrite E in G. cbn [orb] in G.
  rewrite !andb_true_iff, !Bool.eqb_true_iff, N.ltb_lt in G. unfold kind_of.
  destruct G as (((((G1 & G2) & G3) & G4) & G5) & G6). rewrite G5, G6. auto.
Qed.

Theorem best_not_longer m t n v fl dst : wf t -> input_ok (Literal n v fl) -> N.testbit fl 4 = false ->
  n <> [] -> dmax t <= 2 ^ 18 ->
  coded_length (N.testbit fl 0) n <= 2 ^ 32 - 1 -> coded_length (N.testbit fl 1) v <= 2 ^ 32 - 1 ->
  exists b1 b2 t1 t2, hencode m t (Literal n v (fl + 16)) dst = ((t1, dst ++ b1), Ok tt) /\
    hencode m t (Literal n v fl) dst = ((t2, dst ++ b2), Ok tt) /\
    (length b1 <= length b2)%nat /\ (has_line (inner t) (n, v) = true -> (length b1 < length b2)%nat).
Proof.
  intros Hw Hf F4 Hne Hmax Hln Hlv. destruct Hf as (Hn & Hv & Hfl).
  destruct (best_flag fl Hfl F4) as (Gfl & G4 & G0 & G1 & Gk).
  pose proof (ch_literal (inner t) n v fl F4) as C2.
  destruct (hencode_ok m t (Literal n v fl) dst _ Hw (conj Hn (conj Hv Hfl)) C2 (conj Hlv Hln))
    as (b2 & d2 & h2 & E2 & _ & _ & W2 & _).
  destruct (@table_find_ok enc_error m t n v Hw) as (found & _ & Hfind).
  pose proof (ch_best (inner t) n v (fl + 16) found G4 Hfind) as C1. rewrite G0, G1, Gk in C1.
  assert (S1 : strings_within U32_MAX (match found with
       | Some (i, true) => RIndexed i
       | Some (i, false) => RLiteral (kind_of fl) (NameIndex i) (N.testbit fl 1) v
       | None => RLiteral (kind_of fl) (NameLiteral (N.testbit fl 0) n) (N.testbit fl 1) v
       end)).
  { destruct found as [[i []]|]; cbn [strings_within]; [exact I|split; [exact Hlv|exact I]|split; [exact Hlv|exact Hln]]. }
  destruct (hencode_ok m t (Literal n v (fl + 16)) dst _ Hw (conj Hn (conj Hv Gfl)) C1 S1)
    as (b1 & d1 & h1 & E1 & _ & _ & W1 & _).
  pose proof (hencode_min m t (Literal n v (fl + 16)) dst _ b1 _ Hw (conj Hn (conj Hv Gfl)) C1 S1 E1) as M1.
  exists b1, b2, (conc d1), (conc d2). split; [exact E1|]. split; [exact E2|].
  assert (Hidx : forall i e, lookup (inner t) i = Some e -> i < 2 ^ 14).
  { intros i e Hi. apply lookup_bound in Hi. pose proof (entries_count t Hw) as L.
    change (2 ^ 18) with 262144 in Hmax. change (2 ^ 14) with 16384. lia. }
  assert (Hlit : exists bi bn bv, b2 = bi ++ bn ++ bv /\ (1 <= length bi)%nat /\ (2 <= length bn)%nat /\ (1 <= length bv)%nat /\
            string_wire 6 rfc_padding (N.testbit fl 1) bv v).
  { inversion W2 as [| |k0 bi hn0 bn n0 hv0 bv v0 H1 H2 H3|]; subst. exists bi, bn, bv. split; [reflexivity|].
    split; [apply int_wire_len in H1; lia|]. split; [eapply string_wire_two; eauto|]. split; [eapply string_wire_one; eauto|exact H3]. }
  destruct Hlit as (bi & bn & bv & -> & L1 & L2 & L3 & Sv). rewrite !app_length.
  destruct found as [[i []]|].
  - destruct Hfind as [Hi _]. destruct (short_int 7 1 i (Hidx _ _ Hi)) as (bs & Wb & Lb).
    pose proof (M1 6%nat bs (wire_indexed _ _ _ _ Wb)). split; [lia|intros _; lia].
  - destruct Hfind as ([v' Hi] & _ & Hnone).
    destruct (short_int (kind_prefix (kind_of fl)) (kind_bits (kind_of fl)) i (Hidx _ _ Hi)) as (bs & Wb & Lb).
    assert (Hi0 : i <> 0) by (intros ->; discriminate Hi).
    pose proof (M1 6%nat (bs ++ bv) (wire_indexed_name _ _ _ _ _ _ _ _ Wb Hi0 Sv)) as L. rewrite app_length in L.
    split; [lia|]. intros Hl. apply has_line_lookup in Hl as [j Hj]. destruct (Hnone j Hj).
  - pose proof (M1 _ _ W2) as L. rewrite !app_length in L. split; [lia|].
    intros Hl. apply has_line_lookup in Hl as [j Hj]. destruct (Hfind j v Hj).
Qed.

(* ------------------------------------------------------------------ *)
(* Decompression bounds. *)
Lemma string_wire_expand lim pad h bs s : string_wire lim pad h bs s -> 5 * N.of_nat (length s) <= 8 * N.of_nat (length bs).
Proof.
  intros H. destruct H as [lb s H1|lb e s r H1 Hb Hsp _]; rewrite app_length.
  - lia.
  - pose proof (splits_length _ _ _ Hsp) as L. rewrite bits_of_bytes_length in L. lia.
Qed.

Lemma static_size_b : forallb (fun e => line_size e <=? 60) rfc_static = true.
Proof. vm_compute. reflexivity. Qed.

Lemma size_in e l : In e l -> line_size e <= size l.
Proof.
  induction l as [|x l IH]; intros H; [destruct H|]. cbn [size]. destruct H as [->|H]; [lia|]. specialize (IH H). lia.
Qed.

Lemma lookup_size l i e : lookup l i = Some e -> line_size e <= N.max 60 (size l).
Proof.
  unfold lookup. destruct (i =? 0); [discriminate|]. intros H. apply nth_error_In in H. apply in_app_or in H as [H|H].
  - pose proof static_size_b as B. rewrite forallb_forall in B. specialize (B e H). apply N.leb_le in B. lia.
  - pose proof (size_in e l H). lia.
Qed.

Lemma amplify B x a v : a <= B -> 1 <= x -> 5 * v <= 8 * x -> 5 * (a + v) <= (5 * B + 8) * x.
Proof.
  intros Ha Hx Hv. assert (H : B * 1 <= B * x) by (apply N.mul_le_mono_l; exact Hx).
  replace ((5 * B + 8) * x) with (5 * (B * x) + 8 * x) by ring. lia.
Qed.

Lemma interp_bound limit d r bs d' h M lim pad : repr_wire lim pad bs r -> interp limit d r = inl (d', h) ->
  size (entries d) <= max_size d -> max_size d <= M -> limit <= M ->
  (length h <= length bs)%nat /\
  5 * total_size h <= (5 * (N.max 60 M - 32) + 8) * N.of_nat (length bs) /\
  size (entries d') <= max_size d' /\ max_size d' <= M.
Proof.
  intros W H Hsz HM Hlim.
  assert (F : forall e, line_size e <= N.max 60 M -> N.of_nat (length (fst e)) + N.of_nat (length (snd e)) <= N.max 60 M - 32).
  { intros e. unfold line_size. lia. }
  assert (Hfit : forall n l, size (fit n l) <= n).
  { intros n l. revert n. induction l as [|e l IH]; intros n; cbn [fit size]; [lia|].
    destruct (N.leb_spec (line_size e) n); cbn [size]; [|lia]. specialize (IH (n - line_size e)). lia. }
  pose proof (repr_wire_nonempty _ _ _ _ W) as L1.
  destruct W as [bs i W|k bi i hv bv v W Hi Hv|k bi hn bn n hv bv v W Hn Hv|bs n W]; cbn [interp] in H.
  - destruct (lookup (entries d) i) as [[n v]|] eqn:E; [|discriminate H]. injection H as <- <-.
    apply lookup_size in E. assert (E' : line_size (n, v) <= N.max 60 M) by lia. apply F in E'. cbn [fst snd] in E'.
    cbn [length total_size header_size fst snd]. unfold header_size. cbn [fst snd]. split; [exact L1|]. split; [|auto].
    match goal with |- 5 * ?x <= _ => replace x with (N.of_nat (length n) + N.of_nat (length v) + 0) by lia end.
    apply amplify; lia.
  - cbn [resolve] in H. destruct (lookup (entries d) i) as [[n v']|] eqn:E; [|discriminate H]. cbn [option_map fst] in H. injection H as <- <-.
    apply lookup_size in E. assert (E' : line_size (n, v') <= N.max 60 M) by lia. apply F in E'. cbn [fst snd] in E'.
    pose proof (string_wire_expand _ _ _ _ _ Hv) as X. pose proof (int_wire_len _ _ _ _ _ W). rewrite app_length.
    cbn [length total_size]. unfold header_size. cbn [fst snd]. split; [lia|]. split.
    { match goal with |- 5 * ?x <= _ => replace x with (N.of_nat (length n) + N.of_nat (length v)) by lia end.
      apply amplify; lia. }
    destruct k; auto. cbn [insert entries max_size]. split; [apply Hfit|exact HM].
  - cbn [resolve] in H. injection H as <- <-.
    pose proof (string_wire_expand _ _ _ _ _ Hv) as X. pose proof (string_wire_expand _ _ _ _ _ Hn) as Y.
    pose proof (int_wire_len _ _ _ _ _ W). rewrite !app_length.
    cbn [length total_size]. unfold header_size. cbn [fst snd]. split; [lia|]. split.
    { match goal with |- 5 * ?x <= _ => replace x with (0 + (N.of_nat (length n) + N.of_nat (length v))) by lia end.
      apply amplify; lia. }
    destruct k; auto. cbn [insert entries max_size]. split; [apply Hfit|exact HM].
  - destruct (N.leb_spec n limit); [|discriminate H]. injection H as <- <-. cbn [length total_size resize entries max_size].
    split; [lia|]. split; [rewrite N.mul_0_r; apply N.le_0_l|]. split; [apply Hfit|lia].
Qed.

Lemma total_size_app a b : total_size (a ++ b) = total_size a + total_size b.
Proof. induction a as [|x a IH]; cbn [app total_size]; [lia|]. rewrite IH. lia. Qed.

Lemma interp_all_bound limit M lim pad prs : forall d d' hs, wires lim pad prs ->
  interp_all limit d (reprs prs) = Some (d', hs) ->
  size (entries d) <= max_size d -> max_size d <= M -> limit <= M ->
  (length hs <= length (wire_octets prs))%nat /\
  5 * total_size hs <= (5 * (N.max 60 M - 32) + 8) * N.of_nat (length (wire_octets prs)).
Proof.
  induction prs as [|[bs r] prs IH]; intros d d' hs Hw Hi Hs HM Hl.
  - cbn in Hi. injection Hi as <- <-. cbn. lia.
  - inversion Hw as [|? ? W1 W2]; subst. cbn [fst snd] in W1.
    cbn [reprs map snd interp_all] in Hi. destruct (interp limit d r) as [[d1 h1]|e] eqn:E; [|discriminate Hi].
    fold (reprs prs) in Hi. destruct (interp_all limit d1 (reprs prs)) as [[d2 hs2]|] eqn:E2; [|discriminate Hi].
    injection Hi as <- <-.
    destruct (interp_bound limit d r bs d1 h1 M _ _ W1 E Hs HM Hl) as (A1 & A2 & A3 & A4).
    destruct (IH d1 d2 hs2 W2 E2 A3 A4 Hl) as (B1 & B2).
    unfold wire_octets in *. cbn [map concat fst]. rewrite !app_length, total_size_app.
    split; [lia|]. nia.
Qed.

Theorem hdecode_bound m d buf dst d1 rest dst1 o : wf (dtable d) -> bytes buf ->
  hdecode m d buf dst = ((d1, rest, dst1), o) ->
  exists hs used, dst1 = dst ++ hs /\ buf = used ++ rest /\
    (length hs <= length used)%nat /\
    5 * total_size hs <=
      (5 * (N.max 60 (N.max (decoder_max_dynamic_size d) (dlimit d)) - 32) + 8) * N.of_nat (length used).
Proof.
  intros Hw Hb H.
  destruct (hdecode_total m d buf dst Hw Hb) as (prs & r & d' & hs & s & E1 & Hp & Hi & _ & _ & E2).
  rewrite H in E2. injection E2 as _ -> -> _. exists hs, (wire_octets prs). split; [reflexivity|]. split; [exact E1|].
  destruct Hw as (_ & Hw & _).
  apply (interp_all_bound (dlimit d) (N.max (decoder_max_dynamic_size d) (dlimit d)) _ _ prs _ _ _ Hp Hi);
    cbn [abs entries max_size]; unfold decoder_max_dynamic_size, table_max_dynamic_size; lia.
Qed.

(* ------------------------------------------------------------------ *)
(* Forwarding decoded headers. *)
Lemma interp_flags limit d r d' h : interp limit d r = inl (d', h) ->
  Forall (fun x => snd x = 0 \/ snd x = 4 \/ snd x = 8) h.
Proof.
  destruct r as [i|k nr hv v|n]; cbn [interp].
  - destruct (lookup (entries d) i) as [[n v]|]; [|discriminate]. intros [= <- <-]. repeat constructor.
  - destruct (resolve d nr); [|discriminate]. intros [= <- <-]. constructor; [|constructor]. destruct k; cbn; auto.
  - destruct (n <=? limit); [|discriminate]. intros [= <- <-]. constructor.
Qed.

Lemma interp_all_flags limit rs : forall d d' hs, interp_all limit d rs = Some (d', hs) ->
  Forall (fun x => snd x = 0 \/ snd x = 4 \/ snd x = 8) hs.
Proof.
  induction rs as [|r rs IH]; intros d d' hs H; cbn [interp_all] in H.
  - injection H as <- <-. constructor.
  - destruct (interp limit d r) as [[d1 h1]|e] eqn:E; [|discriminate].
    destruct (interp_all limit d1 rs) as [[d2 h2]|] eqn:E2; [|discriminate]. injection H as <- <-.
    apply Forall_app. split; [eapply interp_flags; eauto|eauto].
Qed.

Theorem hdecode_flags m d buf dst d1 rest hs o : wf (dtable d) -> bytes buf ->
  hdecode m d buf dst = ((d1, rest, dst ++ hs), o) ->
  Forall (fun x => snd x = 0 \/ snd x = 4 \/ snd x = 8) hs.
Proof.
  intros Hw Hb H.
  destruct (hdecode_total m d buf dst Hw Hb) as (prs & r & d' & hs' & s & E1 & Hp & Hi & _ & _ & E2).
  rewrite H in E2. injection E2 as _ _ E2 _. apply app_inv_head in E2. subst hs'. eapply interp_all_flags; eauto.
Qed.

Lemma forward_meaning hs : forall d, Forall forwardable hs ->
  exists d', meaning d (map (fun h => Send (as_literal h)) hs) = (d', hs, map (fun _ => Ok tt) hs).
Proof.
  induction hs as [|[[n v] f] hs IH]; intros d H; [exists d; reflexivity|].
  inversion H as [|? ? H1 H2]; subst. destruct H1 as (_ & _ & _ & _ & Hf). cbn [snd] in Hf.
  cbn [map]. rewrite meaning_cons. change (as_literal (n, v, f)) with (Literal n v f). unfold op_meaning. cbn [field_of].
  assert (F : flag_used (entries d) (Literal n v f) = f).
  { destruct Hf as [->|[->| ->]]; reflexivity. }
  rewrite F. destruct (IH (if f =? 4 then insert d (n, v) else d) H2) as (d' & ->). exists d'. reflexivity.
Qed.

Theorem forwarding m m' hs t d dst0 : wf t -> dtable d = t -> dlimit d < 2 ^ 32 -> Forall forwardable hs ->
  exists t' out n,
    run_ops m t [] (map (fun h => Send (as_literal h)) hs) = (t', out, map (fun _ => Ok tt) hs) /\
    hdecode m' d out dst0 = ((set_table d t', [], dst0 ++ hs), Ok n).
Proof.
  intros Hw Hd Hl Hf.
  assert (Ho : Forall (op_ok (dlimit d)) (map (fun h => Send (as_literal h)) hs)).
  { apply Forall_map. eapply Forall_impl; [|exact Hf]. intros [[n v] f] (H1 & H2 & H3 & H4 & H5). cbn [fst snd] in *.
    cbn [op_ok as_literal input_ok sendable fst snd].
    assert (B : f < 256 /\ N.testbit f 0 = false /\ N.testbit f 1 = false).
    { destruct H5 as [->|[->| ->]]; repeat split. }
    destruct B as (B1 & B2 & B3). rewrite B2, B3. cbn [coded_length]. auto 6. }
  destruct (session_sync m m' _ d t dst0 Hw Hd Hl Ho) as (t' & out & n & E1 & _ & E2).
  destruct (forward_meaning hs (abs t) Hf) as (d' & Em). rewrite Em in *. cbn [fst snd] in *. eauto.
Qed.
