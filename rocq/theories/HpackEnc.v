(* The HPACK encoder against the specification. *)
From Verif Require Import Base HuffModel HuffSpec HuffDerived Leb HpackModel HpackSpec HpackApi
  HpackInt HpackStr HpackTab HpackDec.
Open Scope N_scope.

Lemma has_flag_bits f : f < 256 ->
  has_flag f 1 = N.testbit f 0 /\ has_flag f 2 = N.testbit f 1 /\ has_flag f 4 = N.testbit f 2 /\
  has_flag f 8 = N.testbit f 3 /\ has_flag f 16 = N.testbit f 4.
Proof.
  intros H.
  pose (g := fun f => Bool.eqb (has_flag f 1) (N.testbit f 0) && Bool.eqb (has_flag f 2) (N.testbit f 1) &&
    Bool.eqb (has_flag f 4) (N.testbit f 2) && Bool.eqb (has_flag f 8) (N.testbit f 3) &&
    Bool.eqb (has_flag f 16) (N.testbit f 4)).
  assert (G : g f = true) by (apply (all_below 256 g); [vm_compute; reflexivity|exact H]).
  unfold g in G. rewrite !andb_true_iff, !Bool.eqb_true_iff in G. tauto.
Qed.

Lemma lit_after_wf d k e : wfd d -> wfd (lit_after d k e).
Proof. intros H. destruct k; auto. apply wf_conc_fit. apply H. Qed.

(* The integer in front of a literal. *)
Lemma kind_int k i dst : i < 2 ^ 32 ->
  exists bi, encode_integer i (kind_bits k * 2 ^ kind_prefix k) (kind_prefix k) dst = (dst ++ bi, Ok tt) /\
    int_wire 6 (kind_prefix k) (kind_bits k) bi i /\
    (i < 2 ^ 28 -> int_wire 5 (kind_prefix k) (kind_bits k) bi i).
Proof.
  intros Hi.
  destruct (encode_integer_ok i (kind_bits k * 2 ^ kind_prefix k) (kind_prefix k) dst (kp_ok k)) as (bi & He & Hw & Hs & _).
  - destruct k; reflexivity.
  - exact Hi.
  - replace (kind_bits k * 2 ^ kind_prefix k / 2 ^ kind_prefix k) with (kind_bits k) in Hw by (destruct k; reflexivity).
    exists bi. split; [exact He|split; [exact Hw|]]. intros Hlt. eapply int_wire_le; [exact Hw|].
    apply Hs. lia.
Qed.

(* encode_indexed_name *)
Lemma encode_indexed_name_ok m t i v fl dst e : wf t -> bytes v -> fl < 256 ->
  lookup (inner t) i = Some e ->
  exists bi, int_wire 5 (kind_prefix (kind_of fl)) (kind_bits (kind_of fl)) bi i /\
    encode_indexed_name m t i v fl dst =
      with_table (conc (lit_after (abs t) (kind_of fl) (fst e, v)))
                 (encode_string m v (N.testbit fl 1) (dst ++ bi)).
Proof.
  intros Hw Hv Hf He. unfold encode_indexed_name. rewrite get_lookup, He.
  destruct (has_flag_bits fl Hf) as (_ & F2 & F4 & F8 & _). rewrite F2, F4, F8.
  pose proof (lookup_index_small t i e Hw He) as Hi.
  assert (Hi32 : i < 2 ^ 32) by (change (2 ^ 28) with 268435456 in Hi; change (2 ^ 32) with 4294967296; lia).
  destruct (kind_int (kind_of fl) i dst Hi32) as (bi & Hbi & _ & Hw5). specialize (Hw5 Hi).
  exists bi. split; [exact Hw5|]. unfold kind_of in *.
  destruct (N.testbit fl 2).
  - destruct (@table_insert_ok enc_error m t (fst e) v Hw) as [-> _]. cbn [bindd].
    change (kind_bits WithIndexing * 2 ^ kind_prefix WithIndexing) with 64 in Hbi. simpl kind_prefix in Hbi.
    rewrite Hbi. reflexivity.
  - simpl lit_after. destruct (N.testbit fl 3); simpl lit_after; rewrite conc_abs by exact Hw.
    + change (kind_bits NeverIndexed * 2 ^ kind_prefix NeverIndexed) with 16 in Hbi. simpl kind_prefix in Hbi.
      rewrite Hbi. reflexivity.
    + change (kind_bits WithoutIndexing * 2 ^ kind_prefix WithoutIndexing) with 0 in Hbi. simpl kind_prefix in Hbi.
      rewrite Hbi. reflexivity.
Qed.

Lemma encode_literal_ok m t n v fl dst : wf t -> fl < 256 ->
  exists bi, int_wire 5 (kind_prefix (kind_of fl)) (kind_bits (kind_of fl)) bi 0 /\
    encode_literal m t n v fl dst =
      (let t' := conc (lit_after (abs t) (kind_of fl) (n, v)) in
       binds (with_table t' (encode_string m n (N.testbit fl 0) (dst ++ bi)))
         (fun td' _ => with_table (fst td') (encode_string m v (N.testbit fl 1) (snd td')))).
Proof.
  intros Hw Hf. unfold encode_literal.
  destruct (has_flag_bits fl Hf) as (F1 & F2 & F4 & F8 & _). rewrite F1, F2, F4, F8.
  unfold kind_of. destruct (N.testbit fl 2).
  - exists [64]. split; [apply (int_short 5 6 1 0); [reflexivity|lia]|].
    destruct (@table_insert_ok enc_error m t n v Hw) as [-> _]. reflexivity.
  - simpl lit_after. destruct (N.testbit fl 3); simpl lit_after; rewrite conc_abs by exact Hw.
    + exists [16]. split; [apply (int_short 5 4 1 0); [reflexivity|lia]|]. reflexivity.
    + exists [0]. split; [apply (int_short 5 4 0 0); [reflexivity|lia]|]. reflexivity.
Qed.

Lemma int_wire_up lim lim' p hi bs v : (lim <= lim')%nat -> int_wire lim p hi bs v -> int_wire lim' p hi bs v.
Proof. intros H Hw. eapply int_wire_le; eauto. apply int_wire_len in Hw. lia. Qed.

Definition encoded (m : mode) (t : table) (dst : list N) (r : repr)
  (x : enc_state * outcome enc_error unit) : Prop :=
  exists bs d' hs, x = ((conc d', dst ++ bs), Ok tt) /\
    (forall limit, interp limit (abs t) r = inl (d', hs)) /\ wfd d' /\
    repr_wire 6 rfc_padding bs r /\ (strings_within MAX_STRING r -> repr_wire 5 rfc_padding bs r) /\ bytes bs.

Lemma max_string_lt x : x <= MAX_STRING -> x < 127 + 2 ^ 28.
Proof. unfold MAX_STRING. lia. Qed.

Lemma wfd_abs t : wf t -> wfd (abs t).
Proof. intros H. unfold wfd. rewrite conc_abs; auto. Qed.

Lemma kind_bytes lim k bi i : int_wire lim (kind_prefix k) (kind_bits k) bi i -> bytes bi.
Proof.
  intros H. eapply int_wire_bytes; [apply kp_ok| |exact H]. destruct k; compute; reflexivity.
Qed.

Lemma encode_indexed_ok m t i dst e : wf t -> lookup (inner t) i = Some e ->
  encoded m t dst (RIndexed i) (encode_indexed t i dst).
Proof.
  intros Hw He. unfold encode_indexed. rewrite get_lookup, He.
  pose proof (lookup_index_small t i e Hw He) as Hi.
  destruct (encode_integer_ok i 128 7 dst p7) as (bs & Hb & Hw6 & Hs & _); [reflexivity| |].
  { change (2 ^ 28) with 268435456 in Hi; change (2 ^ 32) with 4294967296; lia. }
  change (128 / 2 ^ 7) with 1 in Hw6. rewrite Hb. destruct e as [n v].
  exists bs, (abs t), [(n, v, 0)]. split; [|split; [|split; [|split; [|split]]]].
  - simpl. rewrite conc_abs by exact Hw. reflexivity.
  - intros limit. simpl. rewrite He. reflexivity.
  - apply wfd_abs; auto.
  - constructor. exact Hw6.
  - intros _. constructor. eapply int_wire_le; [exact Hw6|]. apply Hs. lia.
  - eapply int_wire_bytes; [apply p7| |exact Hw6]. reflexivity.
Qed.

Lemma indexed_name_encoded m t i v fl dst e : wf t -> bytes v -> fl < 256 ->
  lookup (inner t) i = Some e -> coded_length (N.testbit fl 1) v <= U32_MAX ->
  encoded m t dst (RLiteral (kind_of fl) (NameIndex i) (N.testbit fl 1) v)
    (encode_indexed_name m t i v fl dst).
Proof.
  intros Hw Hv Hf He Hl.
  destruct (encode_indexed_name_ok m t i v fl dst e Hw Hv Hf He) as (bi & Hbi & ->).
  destruct (encode_string_ok m v (N.testbit fl 1) (dst ++ bi) Hv) as [Hok _].
  destruct (Hok Hl) as (bs & -> & Hw6 & Hw5 & _).
  exists (bi ++ bs), (lit_after (abs t) (kind_of fl) (fst e, v)), [(fst e, v, kind_flag (kind_of fl))].
  assert (Hi0 : i <> 0) by (apply lookup_bound in He; lia).
  split; [|split; [|split; [|split; [|split]]]].
  - simpl. rewrite app_assoc. reflexivity.
  - intros limit. cbn [interp resolve abs entries]. rewrite He. reflexivity.
  - apply lit_after_wf. apply wfd_abs; auto.
  - apply wire_indexed_name; auto. apply (int_wire_up 5 6); [lia|exact Hbi].
  - intros [Hs _]. apply wire_indexed_name; auto. apply Hw5. apply max_string_lt. exact Hs.
  - apply bytes_app. split; [eapply kind_bytes; eauto|]. eapply string_wire_bytes; eauto.
Qed.

Lemma literal_encoded m t n v fl dst : wf t -> bytes n -> bytes v -> fl < 256 ->
  coded_length (N.testbit fl 0) n <= U32_MAX -> coded_length (N.testbit fl 1) v <= U32_MAX ->
  encoded m t dst (RLiteral (kind_of fl) (NameLiteral (N.testbit fl 0) n) (N.testbit fl 1) v)
    (encode_literal m t n v fl dst).
Proof.
  intros Hw Hn Hv Hf Hln Hlv.
  destruct (encode_literal_ok m t n v fl dst Hw Hf) as (bi & Hbi & ->). cbv zeta.
  destruct (encode_string_ok m n (N.testbit fl 0) (dst ++ bi) Hn) as [Hok _].
  destruct (Hok Hln) as (bn & -> & Hn6 & Hn5 & _). cbn [with_table binds fst snd].
  destruct (encode_string_ok m v (N.testbit fl 1) ((dst ++ bi) ++ bn) Hv) as [Hok2 _].
  destruct (Hok2 Hlv) as (bv & -> & Hv6 & Hv5 & _).
  exists (bi ++ bn ++ bv), (lit_after (abs t) (kind_of fl) (n, v)), [(n, v, kind_flag (kind_of fl))].
  split; [|split; [|split; [|split; [|split]]]].
  - simpl. rewrite <- !app_assoc. reflexivity.
  - intros limit. reflexivity.
  - apply lit_after_wf. apply wfd_abs; auto.
  - apply wire_new_name; auto. apply (int_wire_up 5 6); [lia|exact Hbi].
  - intros [Hs1 Hs2]. apply wire_new_name; auto using max_string_lt.
  - rewrite !bytes_app. split; [eapply kind_bytes; eauto|].
    split; eapply string_wire_bytes; eauto.
Qed.

(* encode, when an encodable representation is chosen. *)
Theorem hencode_ok m t f dst r : wf t -> input_ok f -> chosen (inner t) f r ->
  strings_within U32_MAX r -> encoded m t dst r (hencode m t f dst).
Proof.
  intros Hw Hf Hc Hs. destruct Hc as [i e He|i v fl e He|n v fl Hb|n v fl found Hb Hfind]; simpl in Hf; unfold hencode.
  - eapply encode_indexed_ok; eauto.
  - destruct Hf as (_ & Hv & Hfl), Hs as [Hs _]. eapply indexed_name_encoded; eauto.
  - destruct Hf as (Hn & Hv & Hfl), Hs as [Hs1 Hs2].
    destruct (has_flag_bits fl Hfl) as (_ & _ & _ & _ & F16). rewrite F16, Hb.
    apply literal_encoded; auto.
  - destruct Hf as (Hn & Hv & Hfl).
    destruct (has_flag_bits fl Hfl) as (_ & _ & _ & _ & F16). rewrite F16, Hb.
    destruct (@table_find_ok enc_error m t n v Hw) as (found' & -> & Hfind').
    assert (found' = found) as -> by (eapply find_spec_unique; eauto; reflexivity).
    cbn [bindd]. destruct found as [[i []]|]; simpl in Hfind.
    + destruct Hfind as [He _]. pose proof (lookup_index_small t i _ Hw He) as Hi.
      unfold wrap. rewrite N.mod_small by (change (2 ^ 28) with 268435456 in Hi; change (2 ^ 32) with 4294967296; lia).
      eapply encode_indexed_ok; eauto.
    + destruct Hfind as [[w He] _]. pose proof (lookup_index_small t i _ Hw He) as Hi.
      unfold wrap. rewrite N.mod_small by (change (2 ^ 28) with 268435456 in Hi; change (2 ^ 32) with 4294967296; lia).
      destruct Hs as [Hs _]. eapply indexed_name_encoded; eauto.
    + destruct Hs as [Hs1 Hs2]. apply literal_encoded; auto.
Qed.

(* A representation is chosen exactly when the field stands for a header. *)
Lemma chosen_iff t f : wf t -> (field_of (inner t) f <> None <-> exists r, chosen (inner t) f r).
Proof.
  intros Hw. split.
  - intros H. destruct f as [i|i v fl|n v fl]; simpl in H.
    + destruct (lookup (inner t) i) eqn:E; [|congruence]. eexists. econstructor; eauto.
    + destruct (lookup (inner t) i) eqn:E; [|simpl in H; congruence]. eexists. econstructor; eauto.
    + destruct (N.testbit fl 4) eqn:E.
      * destruct (@table_find_ok enc_error Debug t n v Hw) as (found & _ & Hfind).
        eexists. eapply ch_best; eauto.
      * eexists. apply ch_literal. exact E.
  - intros [r H]. destruct H; simpl; try congruence.
    rewrite H. discriminate.
Qed.

Lemma hencode_refused m t f dst : field_of (inner t) f = None ->
  hencode m t f dst = ((t, dst), Err EInvalidIndex).
Proof.
  intros H. destruct f as [i|i v fl|n v fl]; simpl in H; unfold hencode.
  - unfold encode_indexed. rewrite get_lookup, H. reflexivity.
  - unfold encode_indexed_name. rewrite get_lookup. destruct (lookup (inner t) i); [discriminate|reflexivity].
  - discriminate.
Qed.

Lemma has_line_lookup l e : has_line l e = true <-> exists i, lookup l i = Some e.
Proof.
  unfold has_line. destruct (in_dec line_eq_dec e (rfc_static ++ l)) as [H|H].
  - split; [intros _|reflexivity]. apply In_nth_error in H as [k Hk]. exists (N.of_nat k + 1).
    unfold lookup. replace (N.of_nat k + 1 =? 0) with false by (symmetry; apply N.eqb_neq; lia).
    replace (N.to_nat (N.of_nat k + 1 - 1)) with k by lia. exact Hk.
  - split; [discriminate|]. intros [i Hi]. exfalso. apply H. unfold lookup in Hi.
    destruct (i =? 0); [discriminate|]. eapply nth_error_In; eauto.
Qed.

(* What the chosen representation means. *)
Lemma chosen_meaning limit d f r : chosen (entries d) f r ->
  exists n v, field_of (entries d) f = Some (n, v) /\
    interp limit d r =
      inl (if flag_used (entries d) f =? 4 then insert d (n, v) else d, [(n, v, flag_used (entries d) f)]).
Proof.
  assert (K : forall fl e, (match kind_of fl with WithIndexing => insert d e | _ => d end) =
              if kind_flag (kind_of fl) =? 4 then insert d e else d).
  { intros fl e. destruct (kind_of fl); reflexivity. }
  intros H. destruct H as [i e He|i v fl e He|n v fl Hb|n v fl found Hb Hfind].
  - destruct e as [n v]. exists n, v. simpl. rewrite He. auto.
  - exists (fst e), v. split; [simpl; rewrite He; reflexivity|].
    cbn [interp resolve]. rewrite He. simpl option_map. cbv iota beta. rewrite K. reflexivity.
  - exists n, v. split; [reflexivity|]. simpl flag_used. rewrite Hb. cbn [andb interp resolve]. rewrite K. reflexivity.
  - exists n, v. split; [reflexivity|]. simpl flag_used. rewrite Hb. cbn [andb].
    destruct found as [[i []]|]; simpl in Hfind.
    + destruct Hfind as [He _].
      assert (has_line (entries d) (n, v) = true) as -> by (apply has_line_lookup; eauto).
      simpl. rewrite He. reflexivity.
    + destruct Hfind as ([w He] & _ & Hno).
      assert (has_line (entries d) (n, v) = false) as ->.
      { apply not_true_is_false. intros T. apply has_line_lookup in T as [j Hj]. apply (Hno j Hj). }
      cbn [interp resolve]. rewrite He. simpl option_map. cbv iota beta. rewrite K. reflexivity.
    + assert (has_line (entries d) (n, v) = false) as ->.
      { apply not_true_is_false. intros T. apply has_line_lookup in T as [j Hj]. apply (Hfind j v Hj). }
      cbn [interp resolve]. rewrite K. reflexivity.
Qed.

Lemma sendable_within l f r : chosen l f r -> sendable f -> strings_within MAX_STRING r.
Proof.
  intros H Hs. destruct H as [i e He|i v fl e He|n v fl Hb|n v fl found Hb Hfind]; simpl in *; try tauto.
  destruct found as [[i []]|]; simpl; tauto.
Qed.

Lemma within_mono a b r : a <= b -> strings_within a r -> strings_within b r.
Proof.
  intros H. destruct r as [i|k [i|hn n] h v|n]; simpl; intros; try tauto; repeat split; lia.
Qed.

Lemma max_string_u32 : MAX_STRING <= U32_MAX.
Proof. vm_compute. discriminate. Qed.

(* Size updates *)
Lemma encoder_update_ok m t n dst : wf t -> n < 2 ^ 32 ->
  exists bs, encoder_update_max m t n dst = ((conc (resize (abs t) n), dst ++ bs), Ok tt) /\
    repr_wire 6 rfc_padding bs (RSize n) /\ (n <= MAX_UPDATE -> repr_wire 5 rfc_padding bs (RSize n)) /\
    bytes bs /\ wf (conc (resize (abs t) n)).
Proof.
  intros Hw Hn. unfold encoder_update_max.
  destruct (@table_update_ok enc_error m t n Hw Hn) as [-> Hw']. cbn [bindd].
  destruct (encode_integer_ok n 32 5 dst p5) as (bs & -> & Hw6 & Hs & _); [reflexivity|exact Hn|].
  change (32 / 2 ^ 5) with 1 in Hw6. exists bs. split; [reflexivity|split; [|split; [|split]]]; auto.
  - constructor. exact Hw6.
  - intros Hm. constructor. eapply int_wire_le; [exact Hw6|]. apply Hs. unfold MAX_UPDATE in Hm.
    change (2 ^ 5 - 1) with 31. lia.
  - eapply int_wire_bytes; [apply p5| |exact Hw6]. reflexivity.
Qed.

Lemma repr_wire_pad lim (pad pad' : list bool -> Prop) bs r : (forall x, pad x -> pad' x) ->
  repr_wire lim pad bs r -> repr_wire lim pad' bs r.
Proof.
  intros Hp H. destruct H; econstructor; eauto; eapply string_wire_le; eauto.
Qed.

Lemma rfc_code_padding x : rfc_padding x -> code_padding x.
Proof. apply rfc_padding_accepted. Qed.

(* ------------------------------------------------------------------ *)
(* Sessions *)
Theorem session_ok m limit ops : forall t dst, wf t -> limit < 2 ^ 32 -> Forall (op_ok limit) ops ->
  exists out prs d' hs,
    run_ops m t dst ops = (conc d', dst ++ out, snd (meaning (abs t) ops)) /\
    fst (meaning (abs t) ops) = (d', hs) /\
    out = wire_octets prs /\ wires 5 rfc_padding prs /\ bytes out /\
    interp_all limit (abs t) (reprs prs) = Some (d', hs).
Proof.
  induction ops as [|o ops IH]; intros t dst Hw Hlim Hops.
  - exists [], [], (abs t), []. simpl. rewrite conc_abs, app_nil_r by exact Hw. repeat split; constructor.
  - inversion Hops as [|? ? Ho Hops']; subst. simpl run_ops. destruct o as [f|n].
    + simpl meaning. destruct (field_of (inner t) f) as [[n v]|] eqn:Ef.
      * destruct Ho as [Hin Hsend].
        assert (Hne : field_of (inner t) f <> None) by congruence.
        apply chosen_iff in Hne as [r Hr]; [|exact Hw].
        destruct (chosen_meaning limit (abs t) f r Hr) as (n' & v' & Ef' & Hint).
        simpl entries in Ef'. rewrite Ef in Ef'. injection Ef' as <- <-. simpl entries in Hint.
        pose proof (sendable_within _ _ _ Hr Hsend) as Hs.
        destruct (hencode_ok m t f dst r Hw Hin Hr (within_mono _ _ _ max_string_u32 Hs))
          as (bs & d1 & h1 & -> & Hi & Hwd & _ & H5 & Hbs).
        specialize (Hi limit). rewrite Hint in Hi. injection Hi as Hd1 <-. rewrite <- Hd1 in *. clear d1 Hd1.
        set (d1 := if flag_used (inner t) f =? 4 then insert (abs t) (n, v) else abs t) in *.
        destruct (IH (conc d1) (dst ++ bs) Hwd Hlim Hops') as (out & prs & d' & hs & Hrun & Hm & Ho & Hp & Hb & Hia).
        rewrite abs_conc in *. rewrite Hrun.
        destruct (meaning d1 ops) as [[d2 hs2] rs]. simpl in Hm. injection Hm as -> ->.
        exists (bs ++ out), ((bs, r) :: prs), d', ((n, v, flag_used (inner t) f) :: hs).
        split; [|split; [|split; [|split; [|split]]]].
        -- simpl. rewrite app_assoc. reflexivity.
        -- reflexivity.
        -- rewrite Ho. reflexivity.
        -- constructor; [|exact Hp]. simpl. apply H5. exact Hs.
        -- apply bytes_app; auto.
        -- simpl. rewrite Hint. fold (reprs prs). fold d1. rewrite Hia. reflexivity.
      * rewrite (hencode_refused m t f dst Ef).
        destruct (IH t dst Hw Hlim Hops') as (out & prs & d' & hs & Hrun & Hm & Ho' & Hp & Hb & Hia).
        rewrite Hrun. destruct (meaning (abs t) ops) as [[d2 hs2] rs]. simpl in Hm. injection Hm as -> ->.
        exists out, prs, d', hs. repeat split; auto.
    + destruct Ho as [Hn1 Hn2]. assert (Hn : n < 2 ^ 32) by lia.
      destruct (encoder_update_ok m t n dst Hw Hn) as (bs & -> & _ & H5 & Hbs & Hw').
      destruct (IH (conc (resize (abs t) n)) (dst ++ bs) Hw' Hlim Hops') as (out & prs & d' & hs & Hrun & Hm & Ho & Hp & Hb & Hia).
      rewrite abs_conc in *. rewrite Hrun. simpl meaning.
      destruct (meaning (resize (abs t) n) ops) as [[d2 hs2] rs]. simpl in Hm. injection Hm as -> ->.
      exists (bs ++ out), ((bs, RSize n) :: prs), d', hs. split; [|split; [|split; [|split; [|split]]]].
      * simpl. rewrite app_assoc. reflexivity.
      * reflexivity.
      * rewrite Ho. reflexivity.
      * constructor; [|exact Hp]. simpl. apply H5. exact Hn2.
      * apply bytes_app; auto.
      * simpl. replace (n <=? limit) with true by (symmetry; apply N.leb_le; exact Hn1).
        fold (reprs prs). rewrite Hia. reflexivity.
Qed.

Theorem session_sync m m' ops d t dst0 : wf t -> dtable d = t -> dlimit d < 2 ^ 32 ->
  Forall (op_ok (dlimit d)) ops ->
  exists t' out n,
    run_ops m t [] ops = (t', out, snd (meaning (abs t) ops)) /\
    abs t' = fst (fst (meaning (abs t) ops)) /\
    hdecode m' d out dst0 =
      ((set_table d t', [], dst0 ++ snd (fst (meaning (abs t) ops))), Ok n).
Proof.
  intros Hw Ht Hl Hops. destruct (session_ok m (dlimit d) ops t [] Hw Hl Hops)
    as (out & prs & d' & hs & Hrun & Hm & Ho & Hp & Hb & Hi).
  exists (conc d'), out, (counted prs). simpl app in Hrun. split; [exact Hrun|].
  rewrite Hm, abs_conc. split; [reflexivity|]. simpl.
  rewrite <- (app_nil_r out), Ho.
  rewrite (hdecode_ok m' d prs [] d' hs Done dst0); auto.
  - rewrite Ht; auto.
  - rewrite app_nil_r, <- Ho. exact Hb.
  - eapply Forall_impl; [|exact Hp]. intros [b r]. simpl. apply repr_wire_pad. apply rfc_code_padding.
  - rewrite Ht. exact Hi.
  - constructor.
Qed.
