(* How many octets the hpack encoder writes. *)
From Verif Require Import Base HuffTables HuffModel HuffSpec HuffCode HuffDecProofs HuffDerived HuffMore Leb HpackStatic HpackModel
  HpackSpec HpackApi HpackInt HpackStr HpackTab HpackDec HpackEnc HpackDerived HpackMore HpackMore2 HpackUnique.
Open Scope list_scope.
Open Scope N_scope.

(* ------------------------------------------------------------------ *)
(* Specification vocabulary. *)

(* Octets of an integer with a p-bit prefix: one, or one and the 7-bit groups of the rest. *)
Definition int_octets (p v : N) : N :=
  if v <? 2 ^ p - 1 then 1 else 2 + N.log2 (v - (2 ^ p - 1)) / 7.
(* Octets of a string literal: its length and its data. *)
Definition string_octets (huffman : bool) (s : list N) : N :=
  int_octets 7 (coded_length huffman s) + coded_length huffman s.
(* Octets of a representation of RFC 7541 section 6. *)
Definition repr_octets (r : repr) : N :=
  match r with
  | RIndexed i => int_octets 7 i
  | RLiteral k (NameIndex i) h v => int_octets (kind_prefix k) i + string_octets h v
  | RLiteral _ (NameLiteral hn n) h v => 1 + string_octets hn n + string_octets h v
  | RSize n => int_octets 5 n
  end.

(* What a field may need at most. *)
Definition field_bound (f : encoder_input) : N :=
  match f with
  | Indexed _ => 5
  | IndexedName _ v fl => 11 + coded_length (N.testbit fl 1) v
  | Literal n v fl => 13 + coded_length (N.testbit fl 0) n + coded_length (N.testbit fl 1) v
  end.

(* Size of a list of headers in the sense of RFC 7540 section 6.5.2
   (SETTINGS_MAX_HEADER_LIST_SIZE): lengths of name and value plus 32 for each. *)
Fixpoint list_size (hs : list out_header) : N :=
  match hs with [] => 0 | (n, v, _) :: hs' => line_size (n, v) + list_size hs' end.

(* No string is sent Huffman coded. *)
Definition plain_op (o : op) : Prop :=
  match o with
  | Send (Literal _ _ fl) => N.testbit fl 0 = false /\ N.testbit fl 1 = false
  | Send (IndexedName _ _ fl) => N.testbit fl 1 = false
  | _ => True
  end.
Fixpoint resizes (ops : list op) : N :=
  match ops with [] => 0 | Resize _ :: ops' => 1 + resizes ops' | _ :: ops' => resizes ops' end.

(* ------------------------------------------------------------------ *)
Lemma leb_octets t r : leb128 t r -> (length t = 1%nat \/ 128 ^ N.of_nat (length t - 1) <= r) ->
  N.of_nat (length t) = 1 + N.log2 r / 7.
Proof.
  intros Hl Hd. pose proof (leb_bound t r Hl) as Hb. pose proof (leb_nonempty t r Hl) as Hne.
  assert (P : forall k, 128 ^ k = 2 ^ (7 * k)) by (intros k; change 128 with (2 ^ 7); now rewrite <- N.pow_mul_r).
  rewrite !P in *. destruct (N.eq_dec r 0) as [->|Hr].
  - destruct Hd as [->|Hd]; [reflexivity|]. exfalso. pose proof (N.pow_nonzero 2 (7 * N.of_nat (length t - 1))). lia.
  - assert (U : N.log2 r < 7 * N.of_nat (length t)) by (apply N.log2_lt_pow2; lia).
    assert (L : 7 * N.of_nat (length t - 1) <= N.log2 r).
    { destruct Hd as [->|Hd]; [cbn; lia|]. apply N.log2_le_pow2; lia. }
    assert (length t <> 0%nat) by (destruct t; [congruence|discriminate]).
    rewrite Nat2N.inj_sub in L. change (N.of_nat 1) with 1 in L.
    assert (N.log2 r / 7 < N.of_nat (length t)) by (apply N.div_lt_upper_bound; lia).
    assert (N.of_nat (length t) - 1 <= N.log2 r / 7) by (apply N.div_le_lower_bound; lia). lia.
Qed.

(* Any integer has at least the octets, and one form has exactly as many. *)
Lemma int_octets_least lim p hi bs v : int_wire lim p hi bs v -> int_octets p v <= N.of_nat (length bs).
Proof.
  intros H. unfold int_octets. destruct H as [v H1 _|t r Hl _].
  - apply N.ltb_lt in H1. rewrite H1. cbn. lia.
  - replace (2 ^ p - 1 + r <? 2 ^ p - 1) with false by (symmetry; apply N.ltb_ge; lia).
    replace (2 ^ p - 1 + r - (2 ^ p - 1)) with r by lia. cbn [length].
    pose proof (leb_bound t r Hl) as Hb. pose proof (leb_nonempty t r Hl) as Hne.
    assert (length t <> 0%nat) by (destruct t; [congruence|discriminate]).
    assert (N.log2 r / 7 < N.of_nat (length t)); [|lia].
    apply N.div_lt_upper_bound; [lia|]. destruct (N.eq_dec r 0) as [->|Hr]; [cbn [N.log2]; lia|].
    apply N.log2_lt_pow2; [lia|]. rewrite N.pow_mul_r. exact Hb.
Qed.

Lemma int_octets_exists p hi v : v < 2 ^ 32 -> exists bs, int_wire 6 p hi bs v /\ N.of_nat (length bs) = int_octets p v.
Proof.
  intros Hv. unfold int_octets. destruct (v <? 2 ^ p - 1) eqn:E.
  - apply N.ltb_lt in E. exists [hi * 2 ^ p + v]. split; [constructor; [exact E|lia]|reflexivity].
  - apply N.ltb_ge in E. destruct (encode_tail_ok 5 (v - (2 ^ p - 1)) []) as (t & _ & Hl & Hd).
    { change (128 ^ N.of_nat 6) with 4398046511104. change (2 ^ 32) with 4294967296 in Hv. lia. }
    pose proof (leb_octets t _ Hl Hd) as L. exists ((hi * 2 ^ p + (2 ^ p - 1)) :: t). split.
    + replace v with (2 ^ p - 1 + (v - (2 ^ p - 1))) at 1 by lia. constructor; [exact Hl|].
      assert (N.log2 (v - (2 ^ p - 1)) / 7 <= 31 / 7).
      { apply N.div_le_mono; [lia|]. transitivity (N.log2 (2 ^ 32 - 1)); [|vm_compute; discriminate].
        apply N.log2_le_mono. change (2 ^ 32 - 1) with 4294967295. change (2 ^ 32) with 4294967296 in Hv. lia. }
      change (31 / 7) with 4 in *. lia.
    + cbn [length]. lia.
Qed.

Lemma string_parts lim h bs s : string_wire lim rfc_padding h bs s ->
  exists lb d hi, bs = lb ++ d /\ int_wire lim 7 hi lb (N.of_nat (length d)) /\ N.of_nat (length d) = coded_length h s /\
    forall lim' lb', int_wire lim' 7 hi lb' (N.of_nat (length d)) -> string_wire lim' rfc_padding h (lb' ++ d) s.
Proof.
  intros H. destruct H as [lb s H1|lb e s rest H1 Hb Hsp Hp].
  - exists lb, s, 0. split; [reflexivity|]. split; [exact H1|]. split; [reflexivity|]. intros lim' lb' G. now constructor.
  - exists lb, e, 1. split; [reflexivity|]. split; [exact H1|]. split.
    + cbn [coded_length]. f_equal. destruct Hsp as [E _]. apply (f_equal (@length bool)) in E.
      rewrite app_length, bits_of_bytes_length in E. destruct Hp as [_ L].
      apply (Nat.div_unique _ 8 _ (7 - length rest)); lia.
    + intros lim' lb' G. exact (string_huffman lim' rfc_padding lb' e s rest G Hb Hsp Hp).
Qed.

Lemma string_octets_least lim h bs s : string_wire lim rfc_padding h bs s -> string_octets h s <= N.of_nat (length bs).
Proof.
  intros H. destruct (string_parts _ _ _ _ H) as (lb & d & hi & -> & Hi & E & _). unfold string_octets.
  rewrite <- E. pose proof (int_octets_least _ _ _ _ _ Hi). rewrite app_length. lia.
Qed.

Lemma string_octets_exists h bs s : string_wire 6 rfc_padding h bs s -> coded_length h s < 2 ^ 32 ->
  exists bs', string_wire 6 rfc_padding h bs' s /\ N.of_nat (length bs') = string_octets h s.
Proof.
  intros H Hl. destruct (string_parts _ _ _ _ H) as (lb & d & hi & -> & Hi & E & Hf). rewrite <- E in Hl.
  destruct (int_octets_exists 7 hi _ Hl) as (lb' & Hi' & L). exists (lb' ++ d). split; [exact (Hf _ _ Hi')|].
  unfold string_octets. rewrite <- E, app_length. lia.
Qed.

Lemma zero_octets k : int_octets (kind_prefix k) 0 = 1.
Proof. destruct k; reflexivity. Qed.

Lemma repr_octets_least lim bs r : repr_wire lim rfc_padding bs r -> repr_octets r <= N.of_nat (length bs).
Proof.
  intros H. destruct H as [bs i H1|k bi i hv bv v H1 _ H3|k bi hn bn n hv bv v H1 H2 H3|bs n H1]; cbn [repr_octets];
    rewrite ?app_length; try (pose proof (string_octets_least _ _ _ _ H3)); try (pose proof (string_octets_least _ _ _ _ H2));
    pose proof (int_octets_least _ _ _ _ _ H1); rewrite ?zero_octets in *; lia.
Qed.

Lemma repr_octets_exists bs r : repr_wire 6 rfc_padding bs r -> strings_within U32_MAX r ->
  match r with RIndexed i | RLiteral _ (NameIndex i) _ _ | RSize i => i < 2 ^ 32 | _ => True end ->
  exists bs', repr_wire 6 rfc_padding bs' r /\ N.of_nat (length bs') = repr_octets r.
Proof.
  intros H. assert (U : forall x, x <= U32_MAX -> x < 2 ^ 32) by (intros x; unfold U32_MAX; change (2 ^ 32) with 4294967296; lia).
  destruct H as [bs i H1|k bi i hv bv v H1 Hi H3|k bi hn bn n hv bv v H1 H2 H3|bs n H1]; cbn [strings_within repr_octets].
  - intros _ B. destruct (int_octets_exists 7 1 i B) as (b & W & L). exists b. split; [constructor; exact W|exact L].
  - intros [B1 _] B. destruct (int_octets_exists (kind_prefix k) (kind_bits k) i B) as (b & W & L).
    destruct (string_octets_exists _ _ _ H3 (U _ B1)) as (b' & W' & L'). exists (b ++ b').
    split; [constructor; assumption|rewrite app_length; lia].
  - intros [B1 B2] _. assert (Z : 0 < 2 ^ 32) by reflexivity.
    destruct (int_octets_exists (kind_prefix k) (kind_bits k) 0 Z) as (b & W & L). rewrite zero_octets in L.
    destruct (string_octets_exists _ _ _ H3 (U _ B1)) as (b' & W' & L').
    destruct (string_octets_exists _ _ _ H2 (U _ B2)) as (b2 & W2 & L2). exists (b ++ b2 ++ b').
    split; [constructor; assumption|rewrite !app_length; lia].
  - intros _ B. destruct (int_octets_exists 5 1 n B) as (b & W & L). exists b. split; [constructor; exact W|exact L].
Qed.

Lemma chosen_index t f r : wf t -> input_ok f -> chosen (inner t) f r ->
  match r with RIndexed i | RLiteral _ (NameIndex i) _ _ | RSize i => i < 2 ^ 28 | _ => True end.
Proof.
  intros Hw Hf Hc. destruct Hc as [i e He|i v fl e He|n v fl Hb|n v fl found Hb Hfind]; try exact I;
    try exact (lookup_index_small t i e Hw He).
  destruct found as [[i []]|]; [| |exact I].
  - exact (lookup_index_small t i _ Hw (proj1 Hfind)).
  - destruct Hfind as [[w Hi] _]. exact (lookup_index_small t i _ Hw Hi).
Qed.

Theorem hencode_octets m t f dst r bs t' : wf t -> input_ok f -> chosen (inner t) f r -> strings_within U32_MAX r ->
  hencode m t f dst = ((t', dst ++ bs), Ok tt) -> N.of_nat (length bs) = repr_octets r.
Proof.
  intros Hw Hf Hc Hs E. destruct (hencode_ok m t f dst r Hw Hf Hc Hs) as (b & d2 & h2 & E2 & _ & _ & W & _).
  rewrite E in E2. injection E2 as _ E2. apply app_inv_head in E2. subst b.
  pose proof (repr_octets_least _ _ _ W) as L.
  destruct (repr_octets_exists bs r W Hs) as (b & Wb & Lb).
  { pose proof (chosen_index t f r Hw Hf Hc) as X. assert (2 ^ 28 < 2 ^ 32) by reflexivity.
    destruct r as [i|k [i|hn n] h v|n]; try exact I; eapply N.lt_trans; eassumption. }
  pose proof (hencode_min m t f dst r bs t' Hw Hf Hc Hs E _ _ Wb). lia.
Qed.

(* Bounds. *)
Lemma int_octets_bound p v k : v < 2 ^ (7 * k) -> 0 < k -> int_octets p v <= 1 + k.
Proof.
  intros Hv Hk. unfold int_octets. destruct (v <? 2 ^ p - 1); [lia|].
  assert (N.log2 (v - (2 ^ p - 1)) / 7 < k); [|lia]. apply N.div_lt_upper_bound; [lia|].
  destruct (N.eq_dec (v - (2 ^ p - 1)) 0) as [->|H]; [cbn [N.log2]; lia|]. apply N.log2_lt_pow2; lia.
Qed.
Lemma int_octets_pos p v : 1 <= int_octets p v.
Proof. unfold int_octets. destruct (v <? 2 ^ p - 1); lia. Qed.
Lemma string_octets_bound h s : coded_length h s <= U32_MAX -> string_octets h s <= 6 + coded_length h s.
Proof.
  intros H. unfold string_octets. assert (int_octets 7 (coded_length h s) <= 1 + 5); [|lia].
  apply int_octets_bound; [|lia]. unfold U32_MAX in H. change (2 ^ (7 * 5)) with 34359738368. change (2 ^ 32) with 4294967296 in H. lia.
Qed.

Theorem hencode_bound m t f dst dst' t' : wf t -> input_ok f -> hencode m t f dst = ((t', dst'), Ok tt) ->
  exists bs, dst' = dst ++ bs /\ 1 <= N.of_nat (length bs) <= field_bound f.
Proof.
  intros Hw Hf E. destruct (hencode_cases m t f dst Hw Hf) as [[_ E2]|(r & Hr & [(Hs & bs & d' & hs & E2 & _)|(Hs & d' & hs & j & E2 & _)])].
  - rewrite E in E2. discriminate.
  - rewrite E2 in E. injection E as <- <-. exists bs. split; [reflexivity|].
    rewrite (hencode_octets m t f dst r bs _ Hw Hf Hr Hs E2). pose proof (chosen_index t f r Hw Hf Hr) as X. clear E2.
    change (2 ^ 28) with (2 ^ (7 * 4)) in X.
    destruct Hr as [i e He|i v fl e He|n v fl Hb|n v fl found Hb Hfind]; cbn [repr_octets field_bound strings_within] in *.
    + pose proof (int_octets_bound 7 i 4 X eq_refl). pose proof (int_octets_pos 7 i). lia.
    + pose proof (int_octets_bound (kind_prefix (kind_of fl)) i 4 X eq_refl). pose proof (int_octets_pos (kind_prefix (kind_of fl)) i).
      destruct Hs as [Hs _]. pose proof (string_octets_bound _ _ Hs). lia.
    + destruct Hs as [Hs Hs']. pose proof (string_octets_bound _ _ Hs). pose proof (string_octets_bound _ _ Hs'). lia.
    + destruct found as [[i []]|]; cbn [repr_octets strings_within] in *.
      * pose proof (int_octets_bound 7 i 4 X eq_refl). pose proof (int_octets_pos 7 i). lia.
      * pose proof (int_octets_bound (kind_prefix (kind_of fl)) i 4 X eq_refl). pose proof (int_octets_pos (kind_prefix (kind_of fl)) i).
        destruct Hs as [Hs _]. pose proof (string_octets_bound _ _ Hs). lia.
      * destruct Hs as [Hs Hs']. pose proof (string_octets_bound _ _ Hs). pose proof (string_octets_bound _ _ Hs'). lia.
  - rewrite E in E2. discriminate.
Qed.

(* Sessions against the size of the header list. *)
Lemma coded_four h s : bytes s -> coded_length h s <= 4 * N.of_nat (length s).
Proof.
  intros H. destruct h; cbn [coded_length]; [|lia]. pose proof (codes_length_bound s H) as [_ L].
  assert ((length (codes s) + 7) / 8 <= 4 * length s)%nat; [|lia].
  destruct s as [|a s]; [reflexivity|]. transitivity ((30 * length (a :: s) + 7) / 8)%nat; [apply Nat.div_le_mono; lia|].
  cbn [length]. apply Nat.lt_succ_r. apply Nat.div_lt_upper_bound; lia.
Qed.

Lemma update_octets m t n dst dst' t' r : wf t -> n < 2 ^ 32 -> encoder_update_max m t n dst = ((t', dst'), r) ->
  exists bs, r = Ok tt /\ dst' = dst ++ bs /\ N.of_nat (length bs) = int_octets 5 n /\ 1 <= N.of_nat (length bs) <= 6.
Proof.
  intros Hw Hn E. unfold encoder_update_max in E. destruct (@table_update_ok enc_error m t n Hw Hn) as [E1 _]. rewrite E1 in E.
  cbn [bindd] in E. destruct (encode_integer_ok n 32 5 dst p5 eq_refl Hn) as (bs & Eb & W & _ & _ & Hm). rewrite Eb in E.
  cbn [with_table] in E. injection E as _ <- <-. exists bs. split; [reflexivity|]. split; [reflexivity|].
  change (32 / 2 ^ 5) with 1 in *. pose proof (int_octets_least _ _ _ _ _ W) as L.
  destruct (int_octets_exists 5 1 n Hn) as (b & Wb & Lb). pose proof (Hm _ _ Wb).
  assert (B : int_octets 5 n <= 1 + 5).
  { apply int_octets_bound; [|lia]. change (2 ^ (7 * 5)) with 34359738368. change (2 ^ 32) with 4294967296 in Hn. lia. }
  pose proof (int_octets_pos 5 n). lia.
Qed.

Lemma op_size m t dst o : wf t -> op_typed o -> snd (op_step m t dst o) <> Err EIntegerOverflow ->
  exists d' h res bs, op_meaning (abs t) o = (d', h, res) /\ wf (conc d') /\ op_step m t dst o = ((conc d', dst ++ bs), res) /\
    N.of_nat (length bs) <= 4 * list_size h + 6 * resizes [o] /\
    (plain_op o -> N.of_nat (length bs) <= list_size h + 6 * resizes [o]).
Proof.
  intros Hw Ht Hno. destruct (op_step_ok m t dst o Hw Ht Hno) as (d' & h & res & Em & Hw' & C).
  exists d', h, res. destruct C as [(E & -> & -> & ->)|(-> & bs & r & E & _)].
  { exists []. rewrite app_nil_r. split; [exact Em|]. split; [exact Hw'|]. split; [exact E|]. cbn. split; [lia|intros; lia]. }
  exists bs. split; [exact Em|]. split; [exact Hw'|]. split; [exact E|]. destruct o as [f|n]; cbn [op_step op_typed op_meaning] in *.
  - destruct (hencode_bound m t f dst _ _ Hw Ht E) as (b & Eb & B). apply app_inv_head in Eb. subst b.
    change (entries (abs t)) with (inner t) in *. destruct (field_of (inner t) f) as [[n v]|] eqn:Ef; [|discriminate Em].
    cbv zeta in Em. injection Em as _ <-. cbn [list_size resizes]. unfold line_size. cbn [fst snd].
    destruct f as [i|i v0 fl|n0 v0 fl]; cbn [field_bound plain_op field_of input_ok] in *.
    + split; [lia|intros _; lia].
    + destruct (lookup (inner t) i); cbn in Ef; [|discriminate]. injection Ef as _ ->. destruct Ht as (_ & Hv & _).
      pose proof (coded_four (N.testbit fl 1) v Hv). split; [lia|]. intros P. rewrite P in B. cbn [coded_length] in B. lia.
    + injection Ef as -> ->. destruct Ht as (Hn & Hv & _). pose proof (coded_four (N.testbit fl 1) v Hv).
      pose proof (coded_four (N.testbit fl 0) n Hn). split; [lia|]. intros [P Q]. rewrite P, Q in B. cbn [coded_length] in B. lia.
  - destruct (update_octets m t n dst _ _ _ Hw Ht E) as (b & _ & Eb & _ & B). apply app_inv_head in Eb. subst b.
    cbn [resizes]. split; [lia|intros _; lia].
Qed.

Lemma list_size_app a b : list_size (a ++ b) = list_size a + list_size b.
Proof. induction a as [|[[n v] fl] a IH]; [reflexivity|]. cbn [list_size app]. rewrite IH. lia. Qed.
Lemma resizes_cons o ops : resizes (o :: ops) = resizes [o] + resizes ops.
Proof. destruct o; cbn [resizes]; lia. Qed.

Theorem session_size m ops : forall t dst, wf t -> Forall op_typed ops -> no_overflow (snd (run_ops m t dst ops)) ->
  exists t' out, run_ops m t dst ops = (t', dst ++ out, snd (meaning (abs t) ops)) /\
    N.of_nat (length out) <= 4 * list_size (snd (fst (meaning (abs t) ops))) + 6 * resizes ops /\
    (Forall plain_op ops -> N.of_nat (length out) <= list_size (snd (fst (meaning (abs t) ops))) + 6 * resizes ops).
Proof.
  induction ops as [|o ops IH]; intros t dst Hw Hty Hno.
  - exists t, []. rewrite app_nil_r. split; [reflexivity|]. cbn. split; [lia|intros; lia].
  - inversion Hty as [|? ? T1 T2]; subst. rewrite run_ops_cons in *.
    assert (N1 : snd (op_step m t dst o) <> Err EIntegerOverflow).
    { intros E. destruct (op_step m t dst o) as [[t1 dst1] r1]. cbn in E. subst r1. apply Hno.
      destruct (run_ops m t1 dst1 ops) as [[? ?] ?]. left. reflexivity. }
    destruct (op_size m t dst o Hw T1 N1) as (d1 & h & res & bs & Em & Hw1 & E & B1 & B2).
    rewrite meaning_cons, Em, E in *.
    assert (N2 : no_overflow (snd (run_ops m (conc d1) (dst ++ bs) ops))).
    { intros I. apply Hno. destruct (run_ops m (conc d1) (dst ++ bs) ops) as [[? ?] ?]. right. exact I. }
    destruct (IH (conc d1) (dst ++ bs) Hw1 T2 N2) as (t' & out & Hrun & C1 & C2). rewrite abs_conc in *. rewrite Hrun.
    destruct (meaning d1 ops) as [[d2 hs2] rs2]. cbn [fst snd] in *. exists t', (bs ++ out).
    rewrite app_assoc, app_length, list_size_app, resizes_cons. split; [reflexivity|]. split; [lia|].
    intros P. inversion P; subst. specialize (B2 H1). specialize (C2 H2). lia.
Qed.
