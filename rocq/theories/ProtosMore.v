(* Further protobuf proofs: nested messages, injectivity, schema changes, packed
   payloads, size bounds, build modes. *)
From Verif Require Import Base Leb ProtosModel ProtosSpec ProtosApi ProtosNum ProtosEnc ProtosConv ProtosUtf8
  ProtosDec ProtosDerived.
Open Scope N_scope.

(* ------------------------------------------------------------------ *)
(* Octets. *)
Lemma shortest_bytes v bs : shortest v bs -> bytes bs.
Proof. intros [H _]. eapply leb_bytes; eauto. Qed.
Lemma little_bytes k v bs : little k v bs -> bytes bs.
Proof. intros (_ & H & _). exact H. Qed.
Lemma packed_bytes {A} (W : A -> list N -> Prop) vs p : (forall v bs, W v bs -> bytes bs) -> packed W vs p -> bytes p.
Proof.
  intros HW (parts & H & ->). induction H as [|v bs vs parts Hv H IH]; [constructor|].
  cbn [concat]. apply bytes_app. split; [eapply HW; eauto|exact IH].
Qed.

Lemma lit_wire_bytes l t p : lit_ok l -> lit_wire l t p -> bytes p.
Proof.
  intros Hl Hw. destruct l; cbn [lit_wire lit_ok] in *; destruct Hw as [-> Hw]; subst; try exact Hl;
    try (eapply shortest_bytes; exact Hw); try (eapply little_bytes; exact Hw);
    try (destruct Hw as (n & _ & Hw); (eapply shortest_bytes; exact Hw) || (eapply little_bytes; exact Hw));
    (eapply packed_bytes; [|exact Hw]); intros x bs Hx;
    try (eapply shortest_bytes; exact Hx); try (eapply little_bytes; exact Hx);
    destruct Hx as (n & _ & Hx); (eapply shortest_bytes; exact Hx) || (eapply little_bytes; exact Hx).
Qed.

Lemma field_wire_bytes tag t p bs : bytes p -> field_wire (tag, t, p) bs -> bytes bs.
Proof.
  intros Hp (n & key & _ & Hk & H). apply shortest_bytes in Hk. destruct t.
  1,2,4,5: subst; apply bytes_app; split; assumption.
  destruct H as (len & Hl & ->). apply shortest_bytes in Hl. rewrite !bytes_app. auto.
Qed.

Lemma parts_bytes fs ws parts : Forall good_field fs -> Forall2 carries fs ws -> Forall2 field_wire ws parts ->
  bytes (concat parts).
Proof.
  intros Hg Hc. revert parts. induction Hc as [|[tag l] [[tag' t] p] fs ws (Et & Hw) Hc IH]; intros parts Hf.
  - inversion Hf; subst. constructor.
  - inversion Hf as [|x bs y parts' Hx Hf']; subst. inversion Hg as [|x y (Ht & Hl & Hs) Hg']; subst.
    cbn [fst snd concat] in *. apply bytes_app. split; [|now apply IH].
    eapply field_wire_bytes; [|exact Hx]. eapply lit_wire_bytes; eauto.
Qed.

(* ------------------------------------------------------------------ *)
(* Nested messages. *)
Fixpoint tree_ind' (P : tree -> Prop) (HL : forall l, P (Leaf l))
  (HN : forall fs, Forall (fun f => P (snd f)) fs -> P (Node fs)) (t : tree) : P t :=
  match t with
  | Leaf l => HL l
  | Node fs => HN fs ((fix go (l : list (N * tree)) : Forall (fun f => P (snd f)) l :=
      match l with
      | [] => Forall_nil _
      | f :: l' => Forall_cons _ (tree_ind' P HL HN (snd f)) (go l')
      end) fs)
  end.

Lemma tree_lit_ok t : tree_ok t -> lit_ok (as_lit t) /\ small_lit (as_lit t).
Proof.
  induction t as [l|fs IH] using tree_ind'; intros H; inversion H as [? H1 H2|? H1 H2]; subst; [auto|].
  split; [|exact H2]. cbn [as_lit lit_ok].
  set (fs' := map (fun f => (fst f, as_lit (snd f))) fs).
  assert (Hg : Forall good_field fs').
  { unfold fs'. apply Forall_map. rewrite Forall_forall in *. intros f Hf. destruct (H1 f Hf) as [Ht Ho].
    destruct (IH f Hf Ho). split; auto. }
  destruct (fields_exist fs' Hg) as (ws & parts & Hc & Hf).
  rewrite (encode_message_spec fs' ws parts Hg Hc Hf), delivered_vec. cbn [fst written vec_sink app].
  eapply parts_bytes; eauto.
Qed.

Lemma tree_fields_good fs : Forall (fun f => 1 <= fst f < 2 ^ 29 /\ tree_ok (snd f)) fs ->
  Forall good_field (map (fun f => (fst f, as_lit (snd f))) fs).
Proof.
  intros H. apply Forall_map. eapply Forall_impl; [|exact H]. intros f [Ht Ho].
  destruct (tree_lit_ok _ Ho). split; auto.
Qed.

Theorem tree_round_trip m t ty p : tree_ok t -> lit_wire (as_lit t) ty p -> tree_reads m t p.
Proof.
  revert ty p. induction t as [l|fs IH] using tree_ind'; intros ty p Ho Hw.
  - inversion Ho; subst. constructor. eapply reads_back_all; eauto.
  - inversion Ho as [|? H1 H2]; subst. cbn [as_lit lit_wire] in Hw. destruct Hw as [_ ->].
    pose proof (tree_fields_good fs H1) as Hg.
    destruct (message_round_trip_fully m _ Hg) as (bs & ws & He & Hd & Hc).
    rewrite (He []). cbn [fst written vec_sink app].
    apply (tr_node m fs bs ws); [exact (Hd [])|].
    clear He Hd Hg H2 Ho. revert ws Hc. induction fs as [|f fs IHfs]; intros ws Hc; cbn [map] in Hc.
    + inversion Hc; constructor.
    + inversion Hc as [|x w y ws' (Hcw & _) Hc']; subst. inversion IH; subst. inversion H1 as [|? ? [? ?] ?]; subst.
      constructor; [|apply IHfs; assumption].
      destruct Hcw as [Et Hw]. cbn [fst snd] in *. split; [congruence|eauto].
Qed.

(* ------------------------------------------------------------------ *)
(* Injectivity. *)
Lemma carries_inj m schema fs1 fs2 ws : Forall good_field fs1 -> Forall good_field fs2 ->
  Forall (fun f => kind_of_lit (snd f) = schema (fst f)) fs1 ->
  Forall (fun f => kind_of_lit (snd f) = schema (fst f)) fs2 ->
  Forall2 (fun f w => carries f w /\ reads_back m (snd f) (snd w)) fs1 ws ->
  Forall2 (fun f w => carries f w /\ reads_back m (snd f) (snd w)) fs2 ws -> fs1 = fs2.
Proof.
  intros _ _ K1 K2 H1. revert fs2 K2. induction H1 as [|[t1 l1] w fs1 ws ((E1 & _) & R1) H1 IH]; intros fs2 K2 H2.
  - now inversion H2.
  - inversion H2 as [|[t2 l2] w' fs2' ws' ((E2 & _) & R2) H2']; subst. inversion K1; inversion K2; subst.
    cbn [fst snd] in *. assert (Ef : fs1 = fs2') by now apply IH.
    assert (Et : t1 = t2) by congruence. subst.
    assert (Ek : kind_of_lit l1 = kind_of_lit l2) by congruence.
    assert (El : l1 = l2).
    { destruct l1, l2; try discriminate Ek; cbn [reads_back] in R1, R2; congruence. }
    subst. reflexivity.
Qed.

Theorem message_injective schema fs1 fs2 s1 s2 bs n1 n2 : Forall good_field fs1 -> Forall good_field fs2 ->
  Forall (fun f => kind_of_lit (snd f) = schema (fst f)) fs1 ->
  Forall (fun f => kind_of_lit (snd f) = schema (fst f)) fs2 ->
  encode_message fs1 (vec_sink s1) = (vec_sink (s1 ++ bs), Ok n1) ->
  encode_message fs2 (vec_sink s2) = (vec_sink (s2 ++ bs), Ok n2) -> fs1 = fs2.
Proof.
  intros G1 G2 K1 K2 E1 E2.
  destruct (message_round_trip_fully Debug fs1 G1) as (b1 & w1 & He1 & Hd1 & Hc1).
  destruct (message_round_trip_fully Debug fs2 G2) as (b2 & w2 & He2 & Hd2 & Hc2).
  rewrite He1 in E1. rewrite He2 in E2. injection E1 as E1 _. injection E2 as E2 _.
  apply app_inv_head in E1, E2. subst b1 b2.
  assert (w1 = w2).
  { specialize (Hd1 []). specialize (Hd2 []). rewrite Hd1 in Hd2. injection Hd2 as Hd2. exact Hd2. }
  subst w2. eapply carries_inj; eauto.
Qed.

(* ------------------------------------------------------------------ *)
(* Concatenation of messages. *)
Theorem message_concat fs1 fs2 : Forall good_field fs1 -> Forall good_field fs2 ->
  exists b1 b2 w1 w2,
    encode_message fs1 (vec_sink []) = (vec_sink b1, Ok (N.of_nat (length b1))) /\
    encode_message fs2 (vec_sink []) = (vec_sink b2, Ok (N.of_nat (length b2))) /\
    encode_message (fs1 ++ fs2) (vec_sink []) = (vec_sink (b1 ++ b2), Ok (N.of_nat (length (b1 ++ b2)))) /\
    forall m, decode_fully m pdecoder_default b1 [] = ((pdecoder_default, [], w1), Ok tt) /\
      decode_fully m pdecoder_default b2 [] = ((pdecoder_default, [], w2), Ok tt) /\
      decode_fully m pdecoder_default (b1 ++ b2) [] = ((pdecoder_default, [], w1 ++ w2), Ok tt) /\
      Forall2 (fun f w => carries f w /\ reads_back m (snd f) (snd w)) (fs1 ++ fs2) (w1 ++ w2).
Proof.
  intros G1 G2. destruct (fields_exist fs1 G1) as (w1 & p1 & C1 & F1). destruct (fields_exist fs2 G2) as (w2 & p2 & C2 & F2).
  assert (G : Forall good_field (fs1 ++ fs2)) by now apply Forall_app.
  pose proof (Forall2_app C1 C2) as C. pose proof (Forall2_app F1 F2) as F.
  exists (concat p1), (concat p2), w1, w2.
  rewrite (encode_message_spec _ _ _ G1 C1 F1), (encode_message_spec _ _ _ G2 C2 F2), (encode_message_spec _ _ _ G C F), concat_app.
  rewrite !delivered_vec. split; [reflexivity|]. split; [reflexivity|]. split; [reflexivity|]. intros m.
  assert (D : forall fs ws parts, Forall good_field fs -> Forall2 carries fs ws -> Forall2 field_wire ws parts ->
    decode_fully m pdecoder_default (concat parts) [] = ((pdecoder_default, [], ws), Ok tt)).
  { intros fs ws parts Hg Hc Hf. pose proof (decode_message_fully m ws parts [] Hf) as X. apply X.
    pose proof (carried_ok false fs ws Hg ltac:(discriminate) Hc) as Y. eapply Forall_impl; [|exact Y]. cbn. tauto. }
  refine (conj (D _ _ _ G1 C1 F1) (conj (D _ _ _ G2 C2 F2) (conj _ _)));
    [rewrite <- concat_app; exact (D _ _ _ G C F)|].
  clear - C G. induction C as [|f w fs ws Hc C IH]; constructor.
  - inversion G as [|? ? (_ & Hl & _) _]; subst. split; [exact Hc|]. destruct Hc as [_ Hw]. eapply reads_back_all; eauto.
  - inversion G; subst. now apply IH.
Qed.

(* ------------------------------------------------------------------ *)
(* Reading a payload with another type of the same wire format. *)
Lemma truncated_congr w y y' z k : truncated w y' z -> y = (y' + k * 2 ^ Z.of_N w)%Z -> truncated w y z.
Proof. intros [Hi (j & ->)] ->. split; [exact Hi|]. exists (j + k)%Z. lia. Qed.

Lemma pow_split (w w' : N) : w <= w' -> exists c, (2 ^ Z.of_N w' = c * 2 ^ Z.of_N w)%Z.
Proof.
  intros H. exists (2 ^ (Z.of_N w' - Z.of_N w))%Z. rewrite <- Z.pow_add_r by lia. f_equal. lia.
Qed.

Lemma int_as_int w m v z p : w <= 64 -> w_int v p -> truncated w v z -> r_int w m z p.
Proof.
  intros Hw (n & (Hn & (k & E)) & Hs) Ht. exists n. split; [now apply reads_shortest|].
  destruct (pow_split w 64 Hw) as (c & Ec). apply (truncated_congr w _ v z (- (k * c)) Ht).
  rewrite Ec in E. lia.
Qed.
Lemma int_as_uint w m v u p : w <= 64 -> w_int v p -> twos w v u -> r_uint w m u p.
Proof.
  intros Hw (n & (Hn & (k & E)) & Hs) Ht. exists n. split; [now apply reads_shortest|].
  destruct (pow_split w 64 Hw) as (c & Ec).
  destruct Ht as (Hu & (j & Ej)). apply N2Z.inj. rewrite N2Z.inj_mod, N2Z.inj_pow.
  change (Z.of_N 2) with 2%Z. rewrite Ec in E.
  apply (Z.mod_unique_pos _ _ (j - k * c)%Z).
  - split; [lia|]. apply N2Z.inj_lt in Hu. rewrite N2Z.inj_pow in Hu. exact Hu.
  - lia.
Qed.
Lemma int_as_bool m v b p : in_i 64 v -> w_int v p -> (b = true <-> v <> 0%Z) -> r_bool m b p.
Proof.
  intros Hi (n & (Hn & (k & E)) & Hs) Hb. exists n. split; [now apply reads_shortest|]. rewrite Hb.
  unfold in_i in Hi. change (2 ^ Z.of_N 64)%Z with 18446744073709551616%Z in E.
  change (2 ^ (Z.of_N 64 - 1))%Z with 9223372036854775808%Z in Hi.
  change (2 ^ 64) with 18446744073709551616 in Hn. lia.
Qed.
Lemma uint_as_int w m v z p : u64_ok v -> w_uint v p -> truncated w (Z.of_N v) z -> r_int w m z p.
Proof. intros Hv Hs Ht. exists v. split; [now apply reads_shortest|exact Ht]. Qed.
Lemma uint_as_uint w m v p : u64_ok v -> w_uint v p -> r_uint w m (v mod 2 ^ w) p.
Proof. intros Hv Hs. exists v. split; [now apply reads_shortest|reflexivity]. Qed.
Lemma uint_as_bool m v b p : u64_ok v -> w_uint v p -> (b = true <-> v <> 0) -> r_bool m b p.
Proof. intros Hv Hs Hb. exists v. split; [now apply reads_shortest|exact Hb]. Qed.
Lemma sint_as_sint w m v z p : in_i 64 v -> w_sint v p -> truncated w v z -> r_sint w m z p.
Proof.
  intros Hi Hs Ht. exists (zigzag v). split.
  - apply reads_shortest; [exact Hs|]. apply (zigzag_bound 64); [lia|exact Hi].
  - now rewrite unzigzag_zigzag.
Qed.
Lemma fixed_as_sfixed k w m v z p : w_fixed k v p -> truncated w (Z.of_N v) z -> r_sfixed k w m z p.
Proof. intros H Ht. exists v. auto. Qed.
Lemma sfixed_as_fixed k w m v n p : w_sfixed k w v p -> twos w v n -> r_fixed k m n p.
Proof.
  intros (n' & H1 & H) H2. rewrite (twos_unique w v n H2), <- (twos_unique w v n' H1). exact H.
Qed.

Lemma packed_as {A B} (W : A -> list N -> Prop) (R : B -> list N -> Prop) (rel : A -> B -> Prop) vs zs p :
  (forall v z bs, rel v z -> W v bs -> R z bs) -> packed W vs p -> Forall2 rel vs zs -> packed R zs p.
Proof.
  intros H (parts & Hp & ->) Hr. exists parts. split; [|reflexivity]. revert zs Hr.
  induction Hp as [|v bs vs parts Hv Hp IH]; intros zs Hr; inversion Hr; subst; constructor; eauto.
Qed.

(* One value, or all values, converted. *)
Lemma converts_value {A} (R : mode -> A -> list N -> Prop) S L def m b o v rest :
  converts R S L def m (b ++ rest) o -> R m v b -> o = Ok v.
Proof. intros (H & _) Hr. eapply H; eauto. Qed.
Lemma converts_all_values {A} (R : mode -> A -> list N -> Prop) S L m b o vs :
  converts_all R S L m b o -> packed (R m) vs b -> o = Ok vs.
Proof. intros (H & _) Hr. eapply H; eauto. Qed.

Lemma w_int_bytes v p : w_int v p -> bytes p.
Proof. intros (n & _ & H). eapply shortest_bytes; eauto. Qed.
Lemma w_sfixed_bytes k w v p : w_sfixed k w v p -> bytes p.
Proof. intros (n & _ & H). eapply little_bytes; eauto. Qed.

Theorem cast_int m v p : w_int v p ->
  (forall z, truncated 32 v z -> to_i32 m (DInt32 p) = Ok z) /\
  (forall z, truncated 64 v z -> to_i64 m (DInt64 p) = Ok z) /\
  (forall u, twos 32 v u -> to_u32 m (DUInt32 p) = Ok u) /\
  (forall u, twos 64 v u -> to_u64 m (DUInt64 p) = Ok u) /\
  (in_i 64 v -> forall b, (b = true <-> v <> 0%Z) -> to_bool m (DBool p) = Ok b).
Proof.
  intros H. pose proof (w_int_bytes v p H) as Hb. repeat split; intros.
  - pose proof (to_i32_spec m (DInt32 p) Hb) as X. rewrite <- (app_nil_r p) in X at 1. eapply converts_value; [exact X|].
    eapply int_as_int; eauto. lia.
  - pose proof (to_i64_spec m (DInt64 p) Hb) as X. rewrite <- (app_nil_r p) in X at 1. eapply converts_value; [exact X|].
    eapply int_as_int; eauto. lia.
  - pose proof (to_u32_spec m (DUInt32 p) Hb) as X. rewrite <- (app_nil_r p) in X at 1. eapply converts_value; [exact X|].
    eapply int_as_uint; eauto. lia.
  - pose proof (to_u64_spec m (DUInt64 p) Hb) as X. rewrite <- (app_nil_r p) in X at 1. eapply converts_value; [exact X|].
    eapply int_as_uint; eauto. lia.
  - pose proof (to_bool_spec m (DBool p) Hb) as X. rewrite <- (app_nil_r p) in X at 1. eapply converts_value; [exact X|].
    eapply int_as_bool; eauto.
Qed.

Theorem cast_uint m v p : u64_ok v -> w_uint v p ->
  (forall z, truncated 32 (Z.of_N v) z -> to_i32 m (DInt32 p) = Ok z) /\
  (forall z, truncated 64 (Z.of_N v) z -> to_i64 m (DInt64 p) = Ok z) /\
  to_u32 m (DUInt32 p) = Ok (v mod 2 ^ 32) /\
  to_u64 m (DUInt64 p) = Ok v /\
  (forall b, (b = true <-> v <> 0) -> to_bool m (DBool p) = Ok b).
Proof.
  intros Hv H. pose proof (shortest_bytes v p H) as Hb. repeat split; intros.
  - pose proof (to_i32_spec m (DInt32 p) Hb) as X. rewrite <- (app_nil_r p) in X at 1. eapply converts_value; [exact X|].
    eapply uint_as_int; eauto.
  - pose proof (to_i64_spec m (DInt64 p) Hb) as X. rewrite <- (app_nil_r p) in X at 1. eapply converts_value; [exact X|].
    eapply uint_as_int; eauto.
  - pose proof (to_u32_spec m (DUInt32 p) Hb) as X. rewrite <- (app_nil_r p) in X at 1. eapply converts_value; [exact X|].
    eapply uint_as_uint; eauto.
  - pose proof (to_u64_spec m (DUInt64 p) Hb) as X. rewrite <- (app_nil_r p) in X at 1. eapply converts_value; [exact X|].
    rewrite <- (N.mod_small v (2 ^ 64)) at 1 by exact Hv. eapply uint_as_uint; eauto.
  - pose proof (to_bool_spec m (DBool p) Hb) as X. rewrite <- (app_nil_r p) in X at 1. eapply converts_value; [exact X|].
    eapply uint_as_bool; eauto.
Qed.

Theorem cast_sint m v p : in_i 64 v -> w_sint v p ->
  (forall z, truncated 32 v z -> to_i32 m (DSInt32 p) = Ok z) /\ to_i64 m (DSInt64 p) = Ok v.
Proof.
  intros Hv H. pose proof (shortest_bytes _ p H) as Hb. split; intros.
  - pose proof (to_i32_spec m (DSInt32 p) Hb) as X. rewrite <- (app_nil_r p) in X at 1. eapply converts_value; [exact X|].
    eapply sint_as_sint; eauto.
  - pose proof (to_i64_spec m (DSInt64 p) Hb) as X. rewrite <- (app_nil_r p) in X at 1. eapply converts_value; [exact X|].
    eapply sint_as_sint; eauto. split; [exact Hv|]. exists 0%Z. lia.
Qed.

Theorem cast_fixed m v p :
  (w_fixed 4 v p -> to_u32 m (DFixed32 p) = Ok v /\ to_f32 m (DFloat p) = Ok v /\
     forall z, truncated 32 (Z.of_N v) z -> to_i32 m (DSFixed32 p) = Ok z) /\
  (w_fixed 8 v p -> to_u64 m (DFixed64 p) = Ok v /\ to_f64 m (DDouble p) = Ok v /\
     forall z, truncated 64 (Z.of_N v) z -> to_i64 m (DSFixed64 p) = Ok z).
Proof.
  split; intros H; pose proof (little_bytes _ v p H) as Hb; repeat split; intros.
  - pose proof (to_u32_spec m (DFixed32 p) Hb) as X. rewrite <- (app_nil_r p) in X at 1. eapply converts_value; [exact X|exact H].
  - pose proof (to_f32_spec m (DFloat p) Hb) as X. rewrite <- (app_nil_r p) in X at 1. eapply converts_value; [exact X|exact H].
  - pose proof (to_i32_spec m (DSFixed32 p) Hb) as X. rewrite <- (app_nil_r p) in X at 1. eapply converts_value; [exact X|].
    eapply fixed_as_sfixed; eauto.
  - pose proof (to_u64_spec m (DFixed64 p) Hb) as X. rewrite <- (app_nil_r p) in X at 1. eapply converts_value; [exact X|exact H].
  - pose proof (to_f64_spec m (DDouble p) Hb) as X. rewrite <- (app_nil_r p) in X at 1. eapply converts_value; [exact X|exact H].
  - pose proof (to_i64_spec m (DSFixed64 p) Hb) as X. rewrite <- (app_nil_r p) in X at 1. eapply converts_value; [exact X|].
    eapply fixed_as_sfixed; eauto.
Qed.

Theorem cast_sfixed m v n p :
  (w_sfixed 4 32 v p -> twos 32 v n -> to_u32 m (DFixed32 p) = Ok n) /\
  (w_sfixed 8 64 v p -> twos 64 v n -> to_u64 m (DFixed64 p) = Ok n).
Proof.
  split; intros H Hn; pose proof (w_sfixed_bytes _ _ v p H) as Hb.
  - pose proof (to_u32_spec m (DFixed32 p) Hb) as X. rewrite <- (app_nil_r p) in X at 1. eapply converts_value; [exact X|].
    eapply sfixed_as_fixed; eauto.
  - pose proof (to_u64_spec m (DFixed64 p) Hb) as X. rewrite <- (app_nil_r p) in X at 1. eapply converts_value; [exact X|].
    eapply sfixed_as_fixed; eauto.
Qed.

(* The same for packed values. *)
Theorem cast_int_vec m vs p : packed w_int vs p ->
  (forall zs, Forall2 (truncated 32) vs zs -> to_i32_vec m (DInt32Vec p) = Ok zs) /\
  (forall zs, Forall2 (truncated 64) vs zs -> to_i64_vec m (DInt64Vec p) = Ok zs) /\
  (forall us, Forall2 (twos 32) vs us -> to_u32_vec m (DUInt32Vec p) = Ok us) /\
  (forall us, Forall2 (twos 64) vs us -> to_u64_vec m (DUInt64Vec p) = Ok us) /\
  (forall bs, Forall2 (fun v b => in_i 64 v /\ (b = true <-> v <> 0%Z)) vs bs -> to_bool_vec m (DBoolVec p) = Ok bs).
Proof.
  intros H. pose proof (packed_bytes _ vs p w_int_bytes H) as Hb. repeat split; intros xs Hx.
  - apply (converts_all_values _ _ _ _ _ _ _ (to_i32_vec_spec m (DInt32Vec p) Hb)).
    eapply packed_as; [|exact H|exact Hx]. intros. eapply int_as_int; eauto. lia.
  - apply (converts_all_values _ _ _ _ _ _ _ (to_i64_vec_spec m (DInt64Vec p) Hb)).
    eapply packed_as; [|exact H|exact Hx]. intros. eapply int_as_int; eauto. lia.
  - apply (converts_all_values _ _ _ _ _ _ _ (to_u32_vec_spec m (DUInt32Vec p) Hb)).
    eapply packed_as; [|exact H|exact Hx]. intros. eapply int_as_uint; eauto. lia.
  - apply (converts_all_values _ _ _ _ _ _ _ (to_u64_vec_spec m (DUInt64Vec p) Hb)).
    eapply packed_as; [|exact H|exact Hx]. intros. eapply int_as_uint; eauto. lia.
  - apply (converts_all_values _ _ _ _ _ _ _ (to_bool_vec_spec m (DBoolVec p) Hb)).
    eapply packed_as; [|exact H|exact Hx]. intros v b bs [? ?] ?. eapply int_as_bool; eauto.
Qed.

Lemma Forall2_left {A B} (P : A -> Prop) (R : A -> B -> Prop) l l' : Forall P l -> Forall2 R l l' ->
  Forall2 (fun a b => P a /\ R a b) l l'.
Proof. intros HP HR. revert HP. induction HR; intros HP; inversion HP; subst; constructor; auto. Qed.
Lemma Forall2_map_right {A B} (f : A -> B) l : Forall2 (fun a b => b = f a) l (map f l).
Proof. induction l; constructor; auto. Qed.

Theorem cast_uint_vec m vs p : Forall u64_ok vs -> packed w_uint vs p ->
  (forall zs, Forall2 (fun v => truncated 32 (Z.of_N v)) vs zs -> to_i32_vec m (DInt32Vec p) = Ok zs) /\
  (forall zs, Forall2 (fun v => truncated 64 (Z.of_N v)) vs zs -> to_i64_vec m (DInt64Vec p) = Ok zs) /\
  to_u32_vec m (DUInt32Vec p) = Ok (map (fun v => v mod 2 ^ 32) vs) /\
  to_u64_vec m (DUInt64Vec p) = Ok vs /\
  to_bool_vec m (DBoolVec p) = Ok (map (fun v => negb (v =? 0)) vs).
Proof.
  intros Hv H. pose proof (packed_bytes _ vs p (fun v bs => shortest_bytes v bs) H) as Hb.
  refine (conj _ (conj _ (conj _ (conj _ _)))); [intros zs Hz|intros zs Hz| | |].
  - apply (converts_all_values _ _ _ _ _ _ _ (to_i32_vec_spec m (DInt32Vec p) Hb)).
    eapply packed_as; [|exact H|exact (Forall2_left _ _ _ _ Hv Hz)]. intros v z bs [? ?] ?. eapply uint_as_int; eauto.
  - apply (converts_all_values _ _ _ _ _ _ _ (to_i64_vec_spec m (DInt64Vec p) Hb)).
    eapply packed_as; [|exact H|exact (Forall2_left _ _ _ _ Hv Hz)]. intros v z bs [? ?] ?. eapply uint_as_int; eauto.
  - apply (converts_all_values _ _ _ _ _ _ _ (to_u32_vec_spec m (DUInt32Vec p) Hb)).
    eapply packed_as; [|exact H|exact (Forall2_left _ _ _ _ Hv (Forall2_map_right _ vs))].
    intros v z bs [? ->] ?. eapply uint_as_uint; eauto.
  - apply (converts_all_values _ _ _ _ _ _ _ (to_u64_vec_spec m (DUInt64Vec p) Hb)).
    rewrite <- (map_id vs). eapply packed_as; [|exact H|exact (Forall2_left _ _ _ _ Hv (Forall2_map_right _ vs))].
    intros v z bs [Hu ->] ?. rewrite <- (N.mod_small v (2 ^ 64)) by exact Hu. eapply uint_as_uint; eauto.
  - apply (converts_all_values _ _ _ _ _ _ _ (to_bool_vec_spec m (DBoolVec p) Hb)).
    eapply packed_as; [|exact H|exact (Forall2_left _ _ _ _ Hv (Forall2_map_right _ vs))].
    intros v z bs [Hu ->] ?. eapply uint_as_bool; eauto. rewrite Bool.negb_true_iff, N.eqb_neq. tauto.
Qed.

Theorem cast_sint_vec m vs p : Forall (in_i 64) vs -> packed w_sint vs p ->
  (forall zs, Forall2 (truncated 32) vs zs -> to_i32_vec m (DSInt32Vec p) = Ok zs) /\
  to_i64_vec m (DSInt64Vec p) = Ok vs.
Proof.
  intros Hv H. pose proof (packed_bytes _ vs p (fun v bs => shortest_bytes _ bs) H) as Hb. split; [intros zs Hz|].
  - apply (converts_all_values _ _ _ _ _ _ _ (to_i32_vec_spec m (DSInt32Vec p) Hb)).
    eapply packed_as; [|exact H|exact (Forall2_left _ _ _ _ Hv Hz)]. intros v z bs [? ?] ?. eapply sint_as_sint; eauto.
  - apply (converts_all_values _ _ _ _ _ _ _ (to_i64_vec_spec m (DSInt64Vec p) Hb)).
    rewrite <- (map_id vs). eapply packed_as; [|exact H|exact (Forall2_left _ _ _ _ Hv (Forall2_map_right _ vs))].
    intros v z bs [Hu ->] ?. eapply sint_as_sint; eauto. split; [exact Hu|]. exists 0%Z. lia.
Qed.

(* ------------------------------------------------------------------ *)
(* Packed payloads concatenate; an unpacked element is a packed payload of one. *)
Lemma packed_app {A} (W : A -> list N -> Prop) a b p q : packed W a p -> packed W b q -> packed W (a ++ b) (p ++ q).
Proof.
  intros (x & Hx & ->) (y & Hy & ->). exists (x ++ y). split; [now apply Forall2_app|now rewrite concat_app].
Qed.
Lemma packed_one {A} (W : A -> list N -> Prop) v p : W v p -> packed W [v] p.
Proof. intros H. exists [p]. split; [repeat constructor; exact H|cbn; now rewrite app_nil_r]. Qed.

Theorem packed_concat m l1 l2 l t1 t2 p q : lit_ok l1 -> lit_ok l2 -> joined l1 l2 l ->
  lit_wire l1 t1 p -> lit_wire l2 t2 q -> reads_back m l (p ++ q).
Proof.
  intros O1 O2 J W1 W2. apply (reads_back_all m l LengthDelimited).
  - destruct J; cbn [lit_ok] in *; try exact I; try (apply Forall_app; auto); try (constructor; auto); apply bytes_app; auto.
  - destruct J; cbn [lit_wire] in *; destruct W1 as [_ W1], W2 as [_ W2]; subst; (split; [reflexivity|]);
      try reflexivity;
      match goal with
      | |- packed _ (?a ++ ?b) _ => apply packed_app; assumption
      | |- packed _ (?a :: ?b) _ => apply (packed_app _ [a] b); [apply packed_one|]; assumption
      end.
Qed.

(* ------------------------------------------------------------------ *)
(* Size of what decode emits. *)
Lemma item_size m p bs p1 h : item m p bs p1 h ->
  (2 * length h + credit p1 <= length bs + credit p)%nat /\
  (payload_octets h + length h + credit p1 <= length bs + credit p)%nat.
Proof.
  assert (L : forall bs, varint_shape bs -> (1 <= length bs)%nat).
  { intros bs0 (v & H). apply leb_nonempty in H. destruct bs0; [congruence|cbn; lia]. }
  unfold payload_octets.
  intros [b tag t n (Hr & _) _ _|tag b Hb|tag b Hb|tag b Hb|tag b n (Hr & _)|tag n b Hb]; cbn; rewrite ?app_nil_r;
    try apply L in Hr; try apply L in Hb; lia.
Qed.

Lemma items_size m ne p a p1 hs : items m ne p a p1 hs ->
  (2 * length hs + credit p1 <= length a + credit p)%nat /\
  (payload_octets hs + length hs + credit p1 <= length a + credit p)%nat.
Proof.
  induction 1 as [p|p bs p1 h bs' p2 hs Hi _ Hs IH]; [cbn; lia|].
  apply item_size in Hi. unfold payload_octets in *. rewrite map_app, concat_app, !app_length. lia.
Qed.

Theorem decode_size m p b dst : bytes b -> idle p ->
  exists d1 rest hs o used, pdecode m (decoder_of p) b dst = ((d1, rest, dst ++ hs), o) /\ b = used ++ rest /\
    (2 * length hs <= length used + credit p)%nat /\
    (payload_octets hs + length hs <= length used + credit p)%nat.
Proof.
  intros Hb Hp. destruct (pdecode_total m p b dst Hb (idle_sane p Hp)) as (a & p1 & hs & rest & p2 & hs2 & o & E & Ha & Hc & Hd).
  eexists _, rest, (hs ++ hs2), _, a. split; [exact Hd|]. split; [exact E|].
  apply items_size in Ha. unfold payload_octets in *. rewrite map_app, concat_app, !app_length.
  destruct Hc as [p1 rest o Hh|tag rest]; cbn in *; lia.
Qed.

(* ------------------------------------------------------------------ *)
(* Build modes. *)
Lemma reads_release m bs v : reads m bs v -> reads Release bs v.
Proof. intros (H1 & H2 & _). split; [exact H1|]. split; [exact H2|discriminate]. Qed.
Lemma item_release m p bs p1 h : item m p bs p1 h -> item Release p bs p1 h.
Proof. intros []; econstructor; eauto using reads_release. Qed.
Lemma items_release m ne p a p1 hs : items m ne p a p1 hs -> items Release ne p a p1 hs.
Proof. induction 1; econstructor; eauto using item_release. Qed.
Lemma call_ends_release m p rest p2 hs2 o : call_ends m p rest p2 hs2 o -> o <> Panic -> call_ends Release p rest p2 hs2 o.
Proof.
  intros [q r o' [q' r' Hw|bs k x Hr Hk|q' bs x]|tag r] Hn; try congruence; try constructor.
  - constructor. destruct q' as [|tag []|]; cbn in *; try tauto; split; try tauto; discriminate.
  - econstructor; eauto using reads_release.
Qed.

Theorem decode_modes p b dst st o : bytes b -> idle p -> pdecode Debug (decoder_of p) b dst = (st, o) ->
  o = Panic \/ pdecode Release (decoder_of p) b dst = (st, o).
Proof.
  intros Hb Hp E. destruct (pdecode_total Debug p b dst Hb (idle_sane p Hp)) as (a & p1 & hs & rest & p2 & hs2 & o' & -> & Ha & Hc & Hd).
  rewrite Hd in E. injection E as <- <-. destruct o' as [[]|e| |].
  3: now left.
  all: right; apply pdecode_run with p1; [now apply items_release with Debug|]; apply call_ends_release with Debug; [exact Hc|discriminate].
Qed.

(* ------------------------------------------------------------------ *)
(* Sizes promised by the documentation. *)
Lemma negative_int_ten v p : in_i 64 v -> (v < 0)%Z -> w_int v p -> length p = 10%nat.
Proof.
  intros Hi Hv (n & (Hn & (k & E)) & Hs). pose proof (shortest64_length n p Hs Hn) as Hl.
  destruct (shortest_groups n p Hs) as [Hg _]. destruct (Nat.eq_dec (length p) 10) as [|Hne]; [assumption|exfalso].
  assert (Hle : 128 ^ N.of_nat (length p) <= 128 ^ 9) by (apply N.pow_le_mono_r; lia).
  unfold in_i in Hi. change (2 ^ Z.of_N 64)%Z with 18446744073709551616%Z in E.
  change (2 ^ (Z.of_N 64 - 1))%Z with 9223372036854775808%Z in Hi.
  change (2 ^ 64) with 18446744073709551616 in Hn. change (128 ^ 9) with 9223372036854775808 in Hle. lia.
Qed.

Lemma shortest_mono v w a b : shortest v a -> shortest w b -> v <= w -> (length a <= length b)%nat.
Proof.
  intros Ha Hb Hle. destruct (shortest_groups v a Ha) as [_ [Hl|Hg]], (shortest_groups w b Hb) as [Hw _].
  - destruct b; [destruct Hb as [Hb _]; apply leb_nonempty in Hb; congruence|cbn; lia].
  - destruct (Nat.le_gt_cases (length a) (length b)) as [|Hgt]; [assumption|exfalso].
    assert (128 ^ N.of_nat (length b) <= 128 ^ N.of_nat (length a - 1)) by (apply N.pow_le_mono_r; lia). lia.
Qed.

Lemma sint_small k v p : (- 2 ^ (7 * Z.of_nat k + 6) <= v < 2 ^ (7 * Z.of_nat k + 6))%Z -> w_sint v p -> (length p <= S k)%nat.
Proof.
  intros Hv Hs. apply (shortest_length (zigzag v)); [exact Hs|].
  assert (E : Z.of_N (128 ^ N.of_nat (S k)) = (2 * 2 ^ (7 * Z.of_nat k + 6))%Z).
  { rewrite N2Z.inj_pow. change (Z.of_N 128) with (2 ^ 7)%Z. rewrite <- Z.pow_mul_r, <- (Z.pow_succ_r 2) by lia. f_equal. lia. }
  apply N2Z.inj_lt. rewrite E. unfold zigzag. destruct (Z.ltb_spec v 0); rewrite Z2N.id by lia; lia.
Qed.

(* Build modes and conversions. *)
Lemma converts_modes {A} (R : mode -> A -> list N -> Prop) (S L : mode -> list N -> Prop) def b (f : mode -> outcome pdec_error A) :
  (forall v bs, R Debug v bs -> R Release v bs) -> (S Debug b -> S Release b) ->
  converts R S L def Debug b (f Debug) -> converts R S L def Release b (f Release) -> same_or_panic f.
Proof.
  intros HR HS (D1 & D2 & D3 & [(v & bs & rest & E & H)|[H|H]]) (R1 & R2 & _).
  - right. rewrite (D1 v bs rest E H). symmetry. eapply R1; eauto.
  - right. rewrite (D2 H). symmetry. auto.
  - left. auto.
Qed.
Lemma converts_all_modes {A} (R : mode -> A -> list N -> Prop) (S L : mode -> list N -> Prop) b (f : mode -> outcome pdec_error (list A)) :
  (forall v bs, R Debug v bs -> R Release v bs) -> (forall t, S Debug t -> S Release t) ->
  converts_all R S L Debug b (f Debug) -> converts_all R S L Release b (f Release) -> same_or_panic f.
Proof.
  intros HR HS (D1 & D2 & D3 & vs & a & t & E & Hp & H) (R1 & R2 & _).
  assert (Hp' : packed (R Release) vs a).
  { destruct Hp as (parts & Hp & ->). exists parts. split; [|reflexivity]. clear - Hp HR. induction Hp; constructor; auto. }
  destruct H as [->|[[Hn H]|H]].
  - rewrite app_nil_r in E. subst. right. rewrite (D1 _ Hp). symmetry. auto.
  - right. rewrite (D2 _ _ _ E Hp Hn H). symmetry. eauto.
  - left. eauto.
Qed.

Lemma short_release t : short_varint Debug t -> short_varint Release t.
Proof. intros [H _]. split; [exact H|discriminate]. Qed.

Ltac modes_by spec l :=
  pose proof (spec Debug l) as HD; pose proof (spec Release l) as HR;
  destruct l; cbn [lit_octets] in *;
  try (right; congruence);
  specialize (HD ltac:(assumption)); specialize (HR ltac:(assumption));
  ((first [eapply converts_modes; [| |exact HD|exact HR] | eapply converts_all_modes; [| |exact HD|exact HR]]);
  [intros v bs Hv; first [exact Hv | destruct Hv as (n & Hn & Hv); exists n; split; [now apply reads_release with Debug|exact Hv]]
  |intros; first [now apply short_release|assumption]]).

Theorem conversions_modes l : bytes (lit_octets l) ->
  same_or_panic (fun m => to_bool m l) /\ same_or_panic (fun m => to_bool_vec m l) /\
  same_or_panic (fun m => to_i32 m l) /\ same_or_panic (fun m => to_i32_vec m l) /\
  same_or_panic (fun m => to_i64 m l) /\ same_or_panic (fun m => to_i64_vec m l) /\
  same_or_panic (fun m => to_u32 m l) /\ same_or_panic (fun m => to_u32_vec m l) /\
  same_or_panic (fun m => to_u64 m l) /\ same_or_panic (fun m => to_u64_vec m l) /\
  same_or_panic (fun m => to_f32 m l) /\ same_or_panic (fun m => to_f32_vec m l) /\
  same_or_panic (fun m => to_f64 m l) /\ same_or_panic (fun m => to_f64_vec m l).
Proof.
  intros Hb. repeat apply conj.
  - modes_by to_bool_spec l.
  - modes_by to_bool_vec_spec l.
  - modes_by to_i32_spec l.
  - modes_by to_i32_vec_spec l.
  - modes_by to_i64_spec l.
  - modes_by to_i64_vec_spec l.
  - modes_by to_u32_spec l.
  - modes_by to_u32_vec_spec l.
  - modes_by to_u64_spec l.
  - modes_by to_u64_vec_spec l.
  - modes_by to_f32_spec l.
  - modes_by to_f32_vec_spec l.
  - modes_by to_f64_spec l.
  - modes_by to_f64_vec_spec l.
Qed.

(* Encoder results. *)
Lemma encoded_size tag l t p : t <> LengthDelimited -> 1 <= tag < 2 ^ 29 -> lit_ok l -> lit_wire l t p ->
  N.of_nat (length p) < 2 ^ 64 ->
  exists n key, wire_number t n /\ shortest (8 * tag + n) key /\
    forall dst, pencode tag l (vec_sink dst) = (vec_sink (dst ++ key ++ p), Ok (N.of_nat (length key) + N.of_nat (length p))).
Proof.
  intros Ht Hg Hl Hw Hp. destruct (lit_wire_typ l t p Hw) as (n & Hn).
  destruct (field_wire_exists tag t p n Hg Hn Hp) as (bs & Hb). pose proof Hb as Hb'.
  destruct Hb' as (n' & key & Hn' & Hk & E). assert (bs = key ++ p) by (destruct t; congruence || tauto). subst bs.
  exists n', key. split; [exact Hn'|]. split; [exact Hk|]. intros dst.
  rewrite (pencode_spec tag l t p (key ++ p) (vec_sink dst) Hg Hl Hw Hp Hb), delivered_vec, app_length.
  do 2 f_equal. lia.
Qed.

Lemma shortest64_small v p : shortest v p -> v < 2 ^ 64 -> N.of_nat (length p) < 2 ^ 64.
Proof.
  intros H Hv. pose proof (shortest64_length v p H Hv). eapply N.le_lt_trans with 10; [lia|reflexivity].
Qed.

Theorem negative_int_size tag v l : 1 <= tag < 2 ^ 29 -> (v < 0)%Z ->
  (l = EInt32 v /\ in_i 32 v) \/ (l = EInt64 v /\ in_i 64 v) ->
  exists key, shortest (8 * tag) key /\
    forall dst, snd (pencode tag l (vec_sink dst)) = Ok (N.of_nat (length key) + 10).
Proof.
  intros Ht Hv Hl.
  assert (Hi : in_i 64 v) by (destruct Hl as [[_ H]|[_ H]]; [now apply in_i_32_64|exact H]).
  destruct (w_int_ex v) as (p & Hp). assert (Hlen := negative_int_ten v p Hi Hv Hp).
  assert (Hs : N.of_nat (length p) < 2 ^ 64) by (rewrite Hlen; reflexivity).
  destruct (encoded_size tag l Varint p) as (n & key & Hn & Hk & E); auto; [discriminate| | |].
  - destruct Hl as [[-> H]|[-> H]]; exact H.
  - destruct Hl as [[-> H]|[-> H]]; split; auto.
  - cbn in Hn. subst n. rewrite N.add_0_r in Hk. exists key. split; [exact Hk|]. intros dst. rewrite E, Hlen. reflexivity.
Qed.

Theorem sint_size tag k v l : 1 <= tag < 2 ^ 29 ->
  (- 2 ^ (7 * Z.of_nat k + 6) <= v < 2 ^ (7 * Z.of_nat k + 6))%Z ->
  (l = ESInt32 v /\ in_i 32 v) \/ (l = ESInt64 v /\ in_i 64 v) ->
  exists key n, shortest (8 * tag) key /\ n <= N.of_nat k + 1 /\
    forall dst, snd (pencode tag l (vec_sink dst)) = Ok (N.of_nat (length key) + n).
Proof.
  intros Ht Hv Hl.
  assert (Hi : in_i 64 v) by (destruct Hl as [[_ H]|[_ H]]; [now apply in_i_32_64|exact H]).
  destruct (w_sint_ex 64 v ltac:(lia) Hi) as (p & Hp). pose proof (sint_small k v p Hv Hp) as Hlen.
  assert (Hs : N.of_nat (length p) < 2 ^ 64) by (eapply shortest64_small; [exact Hp|apply (zigzag_bound 64); [lia|exact Hi]]).
  destruct (encoded_size tag l Varint p) as (n & key & Hn & Hk & E); auto; [discriminate| | |].
  - destruct Hl as [[-> H]|[-> H]]; exact H.
  - destruct Hl as [[-> H]|[-> H]]; split; auto.
  - cbn in Hn. subst n. rewrite N.add_0_r in Hk. exists key, (N.of_nat (length p)). split; [exact Hk|].
    split; [lia|]. intros dst. rewrite E. reflexivity.
Qed.
