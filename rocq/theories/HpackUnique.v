(* The shortest octets of a representation are unique. *)
From Verif Require Import Base HuffTables HuffModel HuffSpec HuffCode HuffDecProofs HuffDerived HuffMore Leb HpackStatic HpackModel
  HpackSpec HpackApi HpackInt HpackStr HpackTab HpackDec HpackEnc HpackDerived HpackMore HpackMore2.
Open Scope N_scope.

Lemma leb_len_unique a v : leb128 a v -> forall b w, leb128 b w -> v = w -> length a = length b -> a = b.
Proof.
  induction 1 as [x Hx|x bs v Hx Ha IH]; intros b w Hb; inversion Hb as [y Hy|y bs' w' Hy Hb']; subst; intros E L.
  - congruence.
  - cbn in L. destruct bs'; [inversion Hb'|discriminate].
  - cbn in L. destruct bs; [inversion Ha|discriminate].
  - assert (x = y) by lia. assert (v = w') by lia. subst. f_equal. apply (IH bs' w' Hb' eq_refl). cbn in L. lia.
Qed.

Lemma int_len_unique lim lim' p hi a b v : int_wire lim p hi a v -> int_wire lim' p hi b v -> length a = length b -> a = b.
Proof.
  intros Ha Hb. inversion Ha as [v0 H1 H2|t r H1 H2]; subst; inversion Hb as [v1 H3 H4|t' r' H3 H4]; subst; intros L.
  - reflexivity.
  - exfalso. lia.
  - exfalso. lia.
  - f_equal. apply (leb_len_unique t r H1 t' r' H3); [lia|cbn in L; lia].
Qed.

Lemma huffman_unique h h' s rest rest' : bytes h -> bytes h' -> splits (bits_of_bytes h) s rest -> splits (bits_of_bytes h') s rest' ->
  rfc_padding rest -> rfc_padding rest' -> h = h'.
Proof.
  intros B B' S S' P P'.
  assert (D : forall x r, bytes x -> splits (bits_of_bytes x) s r -> rfc_padding r -> encode Release s [] = ([] ++ x, Ok tt)).
  { intros x r Bx Sx Px. apply (decode_canonical Release Release OneBit x [] [] s r Bx Sx); [|exact Px].
    rewrite (decode_ok Release OneBit x [] s r Bx Sx). unfold verdict. now rewrite (rfc_padding_accepted r Px). }
  pose proof (D h rest B S P) as E1. rewrite (D h' rest' B' S' P') in E1. injection E1 as E1. symmetry. exact E1.
Qed.

Lemma string_len_unique lim lim' h a b s : string_wire lim rfc_padding h a s -> string_wire lim' rfc_padding h b s ->
  length a = length b -> a = b.
Proof.
  intros Ha Hb. inversion Ha as [lb s0 H1|lb x s0 r H1 H2 H3 H4]; subst; inversion Hb as [lb' s1 H5|lb' x' s1 r' H5 H6 H7 H8]; subst; intros L.
  - rewrite !app_length in L. f_equal. apply (int_len_unique _ _ _ _ _ _ _ H1 H5). lia.
  - assert (x = x') as <- by (eapply huffman_unique; eauto). rewrite !app_length in L. f_equal.
    apply (int_len_unique _ _ _ _ _ _ _ H1 H5). lia.
Qed.

Lemma int_lim lim lim' p hi a v : int_wire lim p hi a v -> (lim <= lim')%nat -> int_wire lim' p hi a v.
Proof. intros H L. inversion H; subst; constructor; auto; lia. Qed.
Lemma string_lim lim lim' pad h a s : string_wire lim pad h a s -> (lim <= lim')%nat -> string_wire lim' pad h a s.
Proof. intros H L. inversion H; subst; econstructor; eauto using int_lim. Qed.

Theorem wire_min_unique lim lim' a b r : repr_wire lim rfc_padding a r -> repr_wire lim' rfc_padding b r ->
  (forall l c, repr_wire l rfc_padding c r -> (length a <= length c)%nat) -> (length b <= length a)%nat -> a = b.
Proof.
  intros Ha Hb M L. pose proof (M _ _ Hb) as L'. assert (E : length a = length b) by lia. clear L L'.
  set (l := Nat.max lim lim'). assert (l1 : (lim <= l)%nat) by lia. assert (l2 : (lim' <= l)%nat) by lia. clearbody l.
  inversion Ha as [bs i H1|k bi i hv bv v H1 H2 H3|k bi hn bn n hv bv v H1 H2 H3|bs n H1]; subst;
    inversion Hb as [bs' i' G1|k' bi' i' hv' bv' v' G1 G2 G3|k' bi' hn' bn' n' hv' bv' v' G1 G2 G3|bs' n' G1]; subst.
  - exact (int_len_unique _ _ _ _ _ _ _ H1 G1 E).
  - rewrite !app_length in *.
    pose proof (M l _ (wire_indexed_name l _ _ _ _ _ _ _ (int_lim _ _ _ _ _ _ G1 l2) G2 (string_lim _ _ _ _ _ _ H3 l1))) as A.
    pose proof (M l _ (wire_indexed_name l _ _ _ _ _ _ _ (int_lim _ _ _ _ _ _ H1 l1) H2 (string_lim _ _ _ _ _ _ G3 l2))) as B.
    rewrite !app_length in A, B. f_equal.
    + apply (int_len_unique _ _ _ _ _ _ _ H1 G1). lia.
    + apply (string_len_unique _ _ _ _ _ _ H3 G3). lia.
  - rewrite !app_length in *.
    pose proof (M l _ (wire_new_name l _ _ _ _ _ _ _ _ _ (int_lim _ _ _ _ _ _ G1 l2) (string_lim _ _ _ _ _ _ H2 l1) (string_lim _ _ _ _ _ _ H3 l1))) as A.
    pose proof (M l _ (wire_new_name l _ _ _ _ _ _ _ _ _ (int_lim _ _ _ _ _ _ H1 l1) (string_lim _ _ _ _ _ _ G2 l2) (string_lim _ _ _ _ _ _ H3 l1))) as B.
    pose proof (M l _ (wire_new_name l _ _ _ _ _ _ _ _ _ (int_lim _ _ _ _ _ _ H1 l1) (string_lim _ _ _ _ _ _ H2 l1) (string_lim _ _ _ _ _ _ G3 l2))) as C.
    rewrite !app_length in A, B, C. f_equal; [|f_equal].
    + apply (int_len_unique _ _ _ _ _ _ _ H1 G1). lia.
    + apply (string_len_unique _ _ _ _ _ _ H2 G2). lia.
    + apply (string_len_unique _ _ _ _ _ _ H3 G3). lia.
  - exact (int_len_unique _ _ _ _ _ _ _ H1 G1 E).
Qed.

Theorem hencode_unique m t f dst r bs t' : wf t -> input_ok f -> chosen (inner t) f r -> strings_within U32_MAX r ->
  hencode m t f dst = ((t', dst ++ bs), Ok tt) ->
  forall lim bs', repr_wire lim rfc_padding bs' r -> (length bs' <= length bs)%nat -> bs' = bs.
Proof.
  intros Hw Hf Hc Hs E lim bs' Hr L.
  destruct (hencode_ok m t f dst r Hw Hf Hc Hs) as (b & d2 & h2 & E2 & _ & _ & W & _).
  pose proof E as E0. rewrite E2 in E0. injection E0 as _ E0. apply app_inv_head in E0. subst b.
  symmetry. apply (wire_min_unique 6 lim bs bs' r W Hr); [|exact L].
  exact (hencode_min m t f dst r bs t' Hw Hf Hc Hs E).
Qed.
