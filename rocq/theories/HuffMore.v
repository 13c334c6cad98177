(* Further facts about the Huffman crate: expansion, monotonicity, canonical form. *)
From Verif Require Import Base HuffTables HuffModel HuffSpec HuffCode HuffEncProofs HuffDecProofs HuffDerived.
Open Scope N_scope.

(* The output is the splitting's symbols, whatever the verdict. *)
Lemma decode_output m sp src dst dst' o syms rest : bytes src ->
  splits (bits_of_bytes src) syms rest -> decode m sp src dst = (dst', o) -> dst' = dst ++ syms.
Proof. intros Hb Hs H. rewrite (decode_ok m sp src dst syms rest Hb Hs) in H. congruence. Qed.

Lemma splits_length bits syms rest : splits bits syms rest -> (5 * length syms <= length bits)%nat.
Proof.
  intros (-> & Hb & _). rewrite app_length. pose proof (codes_length_bound syms Hb). lia.
Qed.

Lemma decode_expansion m sp src dst syms o : bytes src ->
  decode m sp src dst = (dst ++ syms, o) -> (5 * length syms <= 8 * length src)%nat.
Proof.
  intros Hb H. destruct (splits_total (bits_of_bytes src)) as (s & r & Hs).
  pose proof (decode_output m sp src dst _ _ s r Hb Hs H) as E. apply app_inv_head in E. subst s.
  rewrite <- bits_of_bytes_length. eapply splits_length; eauto.
Qed.

Lemma splits_app b x s r s' r' : splits b s r -> splits (r ++ x) s' r' -> splits (b ++ x) (s ++ s') r'.
Proof.
  intros (-> & Hb & _) (E & Hb' & Hn). split; [|split].
  - unfold codes. rewrite flat_map_app. fold (codes s) (codes s'). rewrite <- !app_assoc. f_equal. exact E.
  - apply bytes_app. auto.
  - exact Hn.
Qed.

Lemma decode_prefix m m' sp sp' a b dst dst1 dst2 o1 o2 : bytes (a ++ b) ->
  decode m sp a dst = (dst1, o1) -> decode m' sp' (a ++ b) dst = (dst2, o2) -> prefix dst1 dst2.
Proof.
  intros Hb H1 H2. assert (Ha : bytes a) by (apply bytes_app in Hb; tauto).
  destruct (splits_total (bits_of_bytes a)) as (s & r & Hs).
  destruct (splits_total (r ++ bits_of_bytes b)) as (s' & r' & Hs').
  pose proof (splits_app _ _ _ _ _ _ Hs Hs') as Hab. rewrite <- bits_of_bytes_app in Hab.
  rewrite (decode_output m sp a dst _ _ _ _ Ha Hs H1), (decode_output m' sp' _ dst _ _ _ _ Hb Hab H2).
  exists s'. apply app_assoc.
Qed.

(* Accepted input is what encode would produce exactly if it is padded as the RFC says. *)
Lemma decode_canonical m m' sp src dst dst2 syms rest : bytes src ->
  splits (bits_of_bytes src) syms rest -> decode m sp src dst = (dst ++ syms, Ok tt) ->
  (encode m' syms dst2 = (dst2 ++ src, Ok tt) <-> rfc_padding rest).
Proof.
  intros Hb Hs _. destruct Hs as (E & Hsy & Hn).
  destruct (encode_ok m' syms dst2 Hsy) as (out & k & He & Ho & Hk & Hbits).
  split.
  - intros H. rewrite He in H. injection H as H. apply app_inv_head in H. subst out.
    rewrite E in Hbits. apply app_inv_head in Hbits. subst rest. split.
    + rewrite code_eos. apply prefix_repeat. lia.
    + rewrite repeat_length. exact Hk.
  - intros [Hp Hl]. pose proof (ones_of_prefix_eos rest Hp) as Er.
    assert (k = length rest).
    { apply (bits_pad_unique (codes syms)).
      - rewrite <- Hbits, bits_of_bytes_length, Nat.mul_comm. apply Nat.mod_mul. lia.
      - rewrite <- Er, <- E, bits_of_bytes_length, Nat.mul_comm. apply Nat.mod_mul. lia.
      - exact Hk.
      - exact Hl. }
    subst k. rewrite He. f_equal. f_equal. apply bits_of_bytes_inj; auto. rewrite Hbits, E, <- Er. reflexivity.
Qed.

Lemma known_speeds_all : (forall s, In s known_speeds) /\ NoDup known_speeds.
Proof.
  split; [intros []; simpl; tauto|]. unfold known_speeds.
  repeat (constructor; [simpl; intuition discriminate|]). constructor.
Qed.
