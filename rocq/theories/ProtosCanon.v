(* C100: Encoder writes the shortest encoding of a message, and no other is as short. *)
From Verif Require Import Base Leb ProtosModel ProtosSpec ProtosApi ProtosNum ProtosEnc ProtosDec ProtosConv
  ProtosMore ProtosDerived ProtosForeign.
Open Scope N_scope.

(* ------------------------------------------------------------------ *)
(* Specification: the encodings of a message that follow the protobuf documentation to the
   letter, free only in how long they make each varint: true is 1, negative int32 values are
   sign-extended to 64 bits. *)
Definition p_bool (v : bool) : list N -> Prop := any_varint (if v then 1 else 0).
Definition p_int (v : Z) (bs : list N) : Prop := exists n, twos 64 v n /\ any_varint n bs.
Definition p_uint (v : N) : list N -> Prop := any_varint v.
Definition p_sint (v : Z) : list N -> Prop := any_varint (zigzag v).

Definition plain_lit (l : encoder_lit) (t : typ) (p : list N) : Prop :=
  match l with
  | EBytes v => t = LengthDelimited /\ p = v
  | EBool v => t = Varint /\ p_bool v p
  | EBoolVec v => t = LengthDelimited /\ packed p_bool v p
  | EInt32 v | EInt64 v => t = Varint /\ p_int v p
  | EInt32Vec v | EInt64Vec v => t = LengthDelimited /\ packed p_int v p
  | EUInt32 v | EUInt64 v => t = Varint /\ p_uint v p
  | EUInt32Vec v | EUInt64Vec v => t = LengthDelimited /\ packed p_uint v p
  | ESInt32 v | ESInt64 v => t = Varint /\ p_sint v p
  | ESInt32Vec v | ESInt64Vec v => t = LengthDelimited /\ packed p_sint v p
  | EFixed32 v | EFloat v => t = Bit32 /\ w_fixed 4 v p
  | EFixed32Vec v | EFloatVec v => t = LengthDelimited /\ packed (w_fixed 4) v p
  | EFixed64 v | EDouble v => t = Bit64 /\ w_fixed 8 v p
  | EFixed64Vec v | EDoubleVec v => t = LengthDelimited /\ packed (w_fixed 8) v p
  | ESFixed32 v => t = Bit32 /\ w_sfixed 4 32 v p
  | ESFixed32Vec v => t = LengthDelimited /\ packed (w_sfixed 4 32) v p
  | ESFixed64 v => t = Bit64 /\ w_sfixed 8 64 v p
  | ESFixed64Vec v => t = LengthDelimited /\ packed (w_sfixed 8 64) v p
  end.

(* Keys and lengths as in any_record (ProtosForeign.v). *)
Inductive plain_payload : tree -> typ -> list N -> Prop :=
| plain_leaf l t p : plain_lit l t p -> plain_payload (Leaf l) t p
| plain_node fs parts :
    Forall2 (fun f bs => exists t p, plain_payload (snd f) t p /\ any_record (fst f) t p bs) fs parts ->
    plain_payload (Node fs) LengthDelimited (concat parts).
Definition plain_field (f : N * tree) (bs : list N) : Prop :=
  exists t p, plain_payload (snd f) t p /\ any_record (fst f) t p bs.

(* q is shorter than p, or the same. *)
Definition no_longer (q p : list N) : Prop := (length q <= length p)%nat /\ (length q = length p -> q = p).

(* ------------------------------------------------------------------ *)
Lemma no_longer_refl p : no_longer p p.
Proof. split; auto. Qed.
Lemma no_longer_app a b c d : no_longer a b -> no_longer c d -> no_longer (a ++ c) (b ++ d).
Proof.
  intros [H1 E1] [H2 E2]. unfold no_longer. rewrite !app_length. split; [lia|].
  intros E. rewrite E1 by lia. rewrite E2 by lia. reflexivity.
Qed.

Lemma shortest_no_longer v a b : shortest v a -> any_varint v b -> no_longer a b.
Proof.
  intros Ha (Hb & _). split; [now apply Ha|]. intros E. apply (shortest_unique v); [exact Ha|].
  split; [exact Hb|]. intros bs' H. rewrite <- E. now apply Ha.
Qed.

(* A larger number does not get a shorter varint. *)
Lemma shortest_monotone u v a b : u <= v -> shortest u a -> any_varint v b -> (length a <= length b)%nat.
Proof.
  intros Huv Ha (Hb & _). destruct (shortest_groups u a Ha) as [_ [H|H]].
  - pose proof (leb_nonempty b v Hb). destruct b; [contradiction|]. cbn [length]. lia.
  - pose proof (leb_bound b v Hb) as Hv.
    assert (Hlt : 128 ^ N.of_nat (length a - 1) < 128 ^ N.of_nat (length b)) by lia.
    apply N.pow_lt_mono_r_iff in Hlt; lia.
Qed.

Lemma packed_no_longer {A} (P Q : A -> list N -> Prop) vs q p : (forall v x y, In v vs -> P v x -> Q v y -> no_longer x y) ->
  packed P vs q -> packed Q vs p -> no_longer q p.
Proof.
  intros H (xs & Hx & ->) (ys & Hy & ->). revert ys Hy.
  induction Hx as [|v x vs xs Hv Hx IH]; intros ys Hy; inversion Hy as [|? y ? ys' Hv' Hy']; subst; cbn [concat].
  - apply no_longer_refl.
  - apply no_longer_app; [apply (H v); [now left|exact Hv|exact Hv']|].
    apply IH; [|exact Hy']. intros; apply (H v0); [now right|assumption|assumption].
Qed.

Lemma twos_fun w z a b : twos w z a -> twos w z b -> a = b.
Proof.
  intros (Ha & j & Ea) (Hb & k & Eb).
  assert (H : (Z.of_N a mod 2 ^ Z.of_N w = Z.of_N b mod 2 ^ Z.of_N w)%Z).
  { assert (Z.of_N a = Z.of_N b + (k - j) * 2 ^ Z.of_N w)%Z by lia. rewrite H. now rewrite Z_mod_plus_full. }
  assert (Hw : (2 ^ Z.of_N w = Z.of_N (2 ^ w))%Z) by (rewrite N2Z.inj_pow; reflexivity).
  rewrite Hw, !Z.mod_small in H by lia. lia.
Qed.
Lemma le_value_inj a : forall b, bytes a -> bytes b -> length a = length b -> le_value a = le_value b -> a = b.
Proof.
  induction a as [|x a IH]; intros [|y b] Ha Hb El E; try discriminate; [reflexivity|].
  inversion Ha; inversion Hb; subst. cbn [le_value length] in *. unfold is_byte in *.
  assert (le_value a = le_value b) by lia. assert (x = y) by lia. subst. f_equal. apply IH; auto.
Qed.
Lemma little_fun k v a b : little k v a -> little k v b -> a = b.
Proof. intros (L1 & B1 & V1) (L2 & B2 & V2). apply le_value_inj; congruence || auto. Qed.

Lemma bool_nl v x y : w_bool v x -> p_bool v y -> no_longer x y.
Proof. apply shortest_no_longer. Qed.
Lemma int_nl v x y : w_int v x -> p_int v y -> no_longer x y.
Proof.
  intros (n & Hn & Hx) (k & Hk & Hy). rewrite (twos_fun 64 v n k Hn Hk) in Hx. exact (shortest_no_longer k x y Hx Hy).
Qed.
Lemma fixed_nl k v x y : w_fixed k v x -> w_fixed k v y -> no_longer x y.
Proof. intros H1 H2. rewrite (little_fun k v x y H1 H2). apply no_longer_refl. Qed.
Lemma sfixed_nl k w v x y : w_sfixed k w v x -> w_sfixed k w v y -> no_longer x y.
Proof.
  intros (n & Hn & H1) (j & Hj & H2). rewrite (twos_fun w v n j Hn Hj) in H1. exact (fixed_nl k j x y H1 H2).
Qed.

Lemma lit_no_longer l t q t' p : lit_wire l t q -> plain_lit l t' p -> t = t' /\ no_longer q p.
Proof.
  destruct l; cbn [lit_wire plain_lit]; intros [-> Hq] [-> Hp]; (split; [reflexivity|]);
    first [ rewrite Hq, Hp; apply no_longer_refl
          | now apply (bool_nl _ _ _ Hq) | now apply (int_nl _ _ _ Hq) | now apply (fixed_nl 4 _ _ _ Hq)
          | now apply (fixed_nl 8 _ _ _ Hq) | now apply (sfixed_nl 4 32 _ _ _ Hq) | now apply (sfixed_nl 8 64 _ _ _ Hq)
          | exact (shortest_no_longer _ _ _ Hq Hp)
          | apply (packed_no_longer _ _ _ _ _ (fun v x y _ => bool_nl v x y) Hq Hp)
          | apply (packed_no_longer _ _ _ _ _ (fun v x y _ => int_nl v x y) Hq Hp)
          | apply (packed_no_longer _ _ _ _ _ (fun v x y _ => fixed_nl 4 v x y) Hq Hp)
          | apply (packed_no_longer _ _ _ _ _ (fun v x y _ => fixed_nl 8 v x y) Hq Hp)
          | apply (packed_no_longer _ _ _ _ _ (fun v x y _ => sfixed_nl 4 32 v x y) Hq Hp)
          | apply (packed_no_longer _ _ _ _ _ (fun v x y _ => sfixed_nl 8 64 v x y) Hq Hp)
          | refine (packed_no_longer _ _ _ _ _ _ Hq Hp); intros ? ? ? _; apply shortest_no_longer ].
Qed.

Lemma record_no_longer tag t q p a b : no_longer q p -> field_wire (tag, t, q) a -> any_record tag t p b -> no_longer a b.
Proof.
  intros Hq (n & key & Hn & Hk & Ha) (_ & n' & key' & Hn' & Hk' & Hb).
  assert (n = n') by (destruct t; cbn [wire_number] in *; congruence || contradiction). subst n'.
  pose proof (shortest_no_longer _ _ _ Hk Hk') as HK.
  destruct t; try (subst a b; apply no_longer_app; assumption).
  destruct Ha as (len & Hl & ->). destruct Hb as (len' & Hl' & ->).
  apply no_longer_app; [exact HK|].
  assert (HL : (length len <= length len')%nat).
  { destruct Hq as [H1 _]. apply (shortest_monotone (N.of_nat (length q)) (N.of_nat (length p))); [lia|exact Hl|exact Hl']. }
  destruct Hq as [H1 H2]. unfold no_longer. rewrite !app_length. split; [lia|].
  intros E. assert (Eq : q = p) by (apply H2; lia). subst p. f_equal.
  destruct (shortest_no_longer _ _ _ Hl Hl') as [_ H3]. apply H3. lia.
Qed.

(* All fields, given that each payload is no longer. *)
Lemma fields_no_longer (fs : list (N * tree)) ws ps parts :
  Forall2 (fun f w => carries (fst f, as_lit (snd f)) w) fs ws -> Forall2 field_wire ws ps ->
  Forall2 (fun f bs => exists t p, any_record (fst f) t p bs /\
     forall ty q, lit_wire (as_lit (snd f)) ty q -> ty = t /\ no_longer q p) fs parts ->
  no_longer (concat ps) (concat parts).
Proof.
  intros Hc. revert ps parts. induction Hc as [|[tag x] [[tag' ty] q] fs ws (Et & Hw) Hc IH]; intros ps parts Hf HF;
    inversion Hf; inversion HF; subst; cbn [concat]; [apply no_longer_refl|].
  match goal with H : exists t p, _ |- _ => destruct H as (t & p & Hr & Hn) end. cbn [fst snd] in *. subst tag'.
  destruct (Hn ty q Hw) as [-> Hq]. apply no_longer_app; [|now apply IH].
  eapply record_no_longer; eauto.
Qed.

Lemma map_carries fs ws : Forall2 carries (map (fun f : N * tree => (fst f, as_lit (snd f))) fs) ws ->
  Forall2 (fun f w => carries (fst f, as_lit (snd f)) w) fs ws.
Proof.
  revert ws. induction fs as [|f fs IH]; intros ws H; inversion H; subst; constructor; auto.
Qed.

Lemma node_wire fs : Forall (fun f => 1 <= fst f < 2 ^ 29 /\ tree_ok (snd f)) fs ->
  exists ws ps, Forall2 (fun f w => carries (fst f, as_lit (snd f)) w) fs ws /\ Forall2 field_wire ws ps /\
    forall s, encode_message (map (fun f => (fst f, as_lit (snd f))) fs) s = delivered s (concat ps).
Proof.
  intros H. pose proof (tree_fields_good fs H) as Hg.
  destruct (fields_exist _ Hg) as (ws & ps & Hc & Hf). exists ws, ps.
  refine (conj (map_carries _ _ Hc) (conj Hf _)). exact (encode_message_spec _ ws ps Hg Hc Hf).
Qed.

Lemma tree_no_longer : forall x t p, plain_payload x t p -> tree_ok x ->
  forall ty q, lit_wire (as_lit x) ty q -> ty = t /\ no_longer q p.
Proof.
  fix self 4. intros x t p H Ho ty q Hw. destruct H as [l t p Hp|fs parts HF].
  - exact (lit_no_longer l ty q t p Hw Hp).
  - inversion Ho as [|? H1 _]; subst. cbn [as_lit lit_wire] in Hw. destruct Hw as [-> ->]. split; [reflexivity|].
    destruct (node_wire fs H1) as (ws & ps & Hc & Hf & He). rewrite He, delivered_vec. cbn [fst written vec_sink app].
    apply (fields_no_longer fs ws ps parts Hc Hf).
    clear He Hf Hc ws ps Ho. induction HF as [|f bs fs parts HE HF IH]; constructor.
    + destruct HE as (t & p & Hp & Hr). inversion H1 as [|? ? [_ Hf1] _]; subst. exists t, p. split; [exact Hr|].
      exact (self _ _ _ Hp Hf1).
    + apply IH. now inversion H1.
Qed.

(* What Encoder writes is one of them. *)
Lemma p_int_of v bs : w_int v bs -> p_int v bs.
Proof. intros (n & Hn & H). exists n. split; [exact Hn|]. apply shortest_any; [exact H|apply Hn]. Qed.
Lemma p_uint_of w v bs : w <= 64 -> v < 2 ^ w -> w_uint v bs -> p_uint v bs.
Proof.
  intros Hw Hv H. apply shortest_any; [exact H|]. eapply N.lt_le_trans; [exact Hv|]. now apply N.pow_le_mono_r.
Qed.
Lemma p_bool_of v bs : w_bool v bs -> p_bool v bs.
Proof. intros H. apply shortest_any; [exact H|destruct v; reflexivity]. Qed.
Lemma lit_wire_plain l t p : lit_ok l -> lit_wire l t p -> plain_lit l t p.
Proof.
  intros Hl. destruct l; cbn [lit_ok lit_wire plain_lit] in *; rewrite ?Forall_forall in Hl; intros [-> H];
    (split; [reflexivity|]); try exact H;
    first [ now apply p_bool_of | now apply p_int_of
          | apply (p_uint_of 32); [lia|exact Hl|exact H] | apply (p_uint_of 64); [lia|exact Hl|exact H]
          | apply (w_sint_any 32); [lia|exact Hl|exact H] | apply (w_sint_any 64); [lia|exact Hl|exact H]
          | eapply packed_impl; [|exact H]; cbn beta; intros v' bs Hin Hv;
            first [ now apply p_bool_of | now apply p_int_of
                  | apply (p_uint_of 32); [lia|exact (Hl _ Hin)|exact Hv]
                  | apply (p_uint_of 64); [lia|exact (Hl _ Hin)|exact Hv]
                  | apply (w_sint_any 32); [lia|exact (Hl _ Hin)|exact Hv]
                  | apply (w_sint_any 64); [lia|exact (Hl _ Hin)|exact Hv] ] ].
Qed.

Lemma field_wire_record tag t p bs : 1 <= tag < 2 ^ 29 -> N.of_nat (length p) < 2 ^ 64 ->
  field_wire (tag, t, p) bs -> any_record tag t p bs.
Proof.
  intros Ht Hlen (n & key & Hn & Hk & Hm). split; [exact Ht|]. exists n, key. split; [exact Hn|]. split.
  - apply shortest_any; [exact Hk|]. apply wire_number_num in Hn as [_ Hn].
    change (2 ^ 29) with 536870912 in *. change (2 ^ 64) with 18446744073709551616. lia.
  - destruct t; try exact Hm. destruct Hm as (len & Hlen' & E). exists len. split; [now apply shortest_any|exact E].
Qed.

Lemma fields_plain fs ws ps : Forall (fun f => 1 <= fst f < 2 ^ 29 /\ tree_ok (snd f)) fs ->
  Forall2 (fun f w => carries (fst f, as_lit (snd f)) w) fs ws -> Forall2 field_wire ws ps ->
  Forall (fun f => tree_ok (snd f) -> forall ty q, lit_wire (as_lit (snd f)) ty q -> plain_payload (snd f) ty q) fs ->
  Forall2 plain_field fs ps.
Proof.
  intros Ho Hc. revert ps. induction Hc as [|[tag x] [[tag' ty] q] fs ws (Et & Hw) Hc IH]; intros ps Hf HI;
    inversion Hf; subst; constructor.
  - inversion Ho as [|? ? [Ht Hx] _]; inversion HI as [|? ? Hp _]; subst. cbn [fst snd] in *. subst tag'.
    exists ty, q. cbn [fst snd]. split; [now apply Hp|].
    apply field_wire_record; [exact Ht| |assumption].
    destruct (tree_lit_ok x Hx) as [_ Hs]. exact (Hs ty q Hw).
  - inversion Ho; inversion HI; subst. now apply IH.
Qed.

Lemma tree_plain x : tree_ok x -> forall ty q, lit_wire (as_lit x) ty q -> plain_payload x ty q.
Proof.
  induction x as [l|fs IH] using tree_ind'; intros Ho ty q Hw.
  - inversion Ho; subst. constructor. now apply lit_wire_plain.
  - inversion Ho as [|? H1 _]; subst. cbn [as_lit lit_wire] in Hw. destruct Hw as [-> ->].
    destruct (node_wire fs H1) as (ws & ps & Hc & Hf & He). rewrite He, delivered_vec. cbn [fst written vec_sink app].
    apply plain_node. exact (fields_plain fs ws ps H1 Hc Hf IH).
Qed.

(* They are encodings that any reader understands (C99). *)
Lemma plain_any : forall x t p, plain_payload x t p -> tree_ok x -> any_payload x t p.
Proof.
  fix self 4. intros x t p H Ho. destruct H as [l t p Hp|fs parts HF].
  - inversion Ho as [? Hl _|]; subst. constructor; [exact Hl|].
    assert (I : forall w v bs, w = 32 \/ w = 64 -> p_int v bs -> a_int w v bs).
    { intros w v bs Hw (n & (Hn & k & E) & Hv). exists n. split; [exact Hv|]. destruct Hw as [-> | ->].
      - exists (- k * 2 ^ 32)%Z. rewrite E. change (Z.of_N 64) with (32 + 32)%Z. rewrite Z.pow_add_r by lia.
        change (Z.of_N 32) with 32%Z. ring.
      - exists (- k)%Z. rewrite E. ring. }
    assert (B : forall v bs, p_bool v bs -> a_bool v bs).
    { intros v bs Hv. exists (if v then 1 else 0). split; [exact Hv|]. destruct v; split; congruence. }
    assert (U : forall w v bs, v < 2 ^ w -> p_uint v bs -> a_uint w v bs).
    { intros w v bs Hw Hv. exists v. split; [exact Hv|now apply N.mod_small]. }
    destruct l; cbn [lit_ok plain_lit any_lit] in *; rewrite ?Forall_forall in Hl; destruct Hp as [-> Hp];
      (split; [reflexivity|]); try exact Hp;
      first [ now apply B | now apply I; [auto|] | now apply U
            | eapply packed_impl; [|exact Hp]; cbn beta; intros v' bs Hin Hv;
              first [ now apply B | now apply I; [auto|] | apply U; [exact (Hl _ Hin)|exact Hv] ] ].
  - inversion Ho as [|? H1 _]; subst. apply any_node.
    clear Ho. induction HF as [|f bs fs parts HE HF IH]; constructor.
    + destruct HE as (t & p & Hp & Hr). inversion H1 as [|? ? [_ Hf1] _]; subst. exists t, p. split; [|exact Hr].
      exact (self _ _ _ Hp Hf1).
    + apply IH. now inversion H1.
Qed.

Theorem message_shortest fs : tree_ok (Node fs) ->
  exists bs, encode_message (map (fun f => (fst f, as_lit (snd f))) fs) (vec_sink []) =
      (vec_sink bs, Ok (N.of_nat (length bs))) /\
    (exists ps, Forall2 plain_field fs ps /\ bs = concat ps) /\
    forall parts, Forall2 plain_field fs parts -> no_longer bs (concat parts).
Proof.
  intros Ho. inversion Ho as [|? H1 _]; subst. destruct (node_wire fs H1) as (ws & ps & Hc & Hf & He).
  exists (concat ps). refine (conj _ (conj _ _)).
  - rewrite He, delivered_vec. reflexivity.
  - exists ps. split; [|reflexivity]. apply (fields_plain fs ws ps H1 Hc Hf).
    apply Forall_forall. intros f _ Hx. now apply tree_plain.
  - intros parts HP.
    assert (Hw : lit_wire (as_lit (Node fs)) LengthDelimited (concat ps)).
    { cbn [as_lit lit_wire]. rewrite He, delivered_vec. split; reflexivity. }
    destruct (tree_no_longer (Node fs) LengthDelimited (concat parts) (plain_node fs parts HP) Ho _ _ Hw) as [_ H].
    exact H.
Qed.
