(* The protobuf encoder writes the wire format of ProtosApi.v. *)
From Verif Require Import Base Leb ProtosModel ProtosSpec ProtosApi ProtosNum.
Open Scope N_scope.

(* ------------------------------------------------------------------ *)
(* Two's complement. *)
Lemma Zpow_pos w : (0 < 2 ^ Z.of_N w)%Z.
Proof. apply Z.pow_pos_nonneg; lia. Qed.

Lemma as_u_mod w z : Z.of_N (as_u w z) = (z mod 2 ^ Z.of_N w)%Z.
Proof. unfold as_u. rewrite Z2N.id; [reflexivity|]. apply Z.mod_pos_bound, Zpow_pos. Qed.

Lemma as_u_bound w z : as_u w z < 2 ^ w.
Proof.
  pose proof (as_u_mod w z). pose proof (Z.mod_pos_bound z (2 ^ Z.of_N w) (Zpow_pos w)).
  apply N2Z.inj_lt. rewrite N2Z.inj_pow. change (Z.of_N 2) with 2%Z. lia.
Qed.

Lemma twos_as_u w z : twos w z (as_u w z).
Proof.
  split; [apply as_u_bound|]. exists (z / 2 ^ Z.of_N w)%Z. rewrite as_u_mod.
  pose proof (Zpow_pos w). rewrite (Z.div_mod z (2 ^ Z.of_N w)) at 1 by lia. ring.
Qed.

Lemma twos_unique w z n : twos w z n -> n = as_u w z.
Proof.
  intros (Hn & k & E). apply N2Z.inj. rewrite as_u_mod.
  assert (Z.of_N n < 2 ^ Z.of_N w)%Z.
  { apply N2Z.inj_lt in Hn. rewrite N2Z.inj_pow in Hn. exact Hn. }
  rewrite E, Z.mod_add by (pose proof (Zpow_pos w); lia).
  rewrite Z.mod_small; lia.
Qed.

Lemma as_u_congr w y z k : y = (z + k * 2 ^ Z.of_N w)%Z -> as_u w y = as_u w z.
Proof.
  intros ->. unfold as_u. rewrite Z.mod_add; [reflexivity|]. pose proof (Zpow_pos w). lia.
Qed.

Lemma half_pow w : 1 <= w -> (2 ^ Z.of_N w = 2 * 2 ^ (Z.of_N w - 1))%Z.
Proof.
  intros H. replace (Z.of_N w) with (Z.succ (Z.of_N w - 1)) at 1 by lia. rewrite Z.pow_succ_r by lia. reflexivity.
Qed.

Lemma as_i_trunc w n : 1 <= w -> truncated w (Z.of_N n) (as_i w n).
Proof.
  intros Hw. unfold truncated, in_i, as_i.
  pose proof (Zpow_pos w) as Hp. pose proof (half_pow w Hw) as Hh.
  assert (Hm : n mod 2 ^ w < 2 ^ w) by (apply N.mod_lt; pose proof (pow2_pos w); lia).
  assert (E : (Z.of_N (2 ^ w) = 2 ^ Z.of_N w)%Z) by now rewrite N2Z.inj_pow.
  assert (E1 : (Z.of_N (2 ^ (w - 1)) = 2 ^ (Z.of_N w - 1))%Z).
  { rewrite N2Z.inj_pow, N2Z.inj_sub by lia. reflexivity. }
  assert (D : (Z.of_N n = Z.of_N (n mod 2 ^ w) + Z.of_N (n / 2 ^ w) * 2 ^ Z.of_N w)%Z).
  { rewrite <- E, <- N2Z.inj_mul, <- N2Z.inj_add. f_equal. rewrite N.add_comm, N.mul_comm.
    apply N.div_mod. pose proof (pow2_pos w). lia. }
  destruct (N.ltb_spec (n mod 2 ^ w) (2 ^ (w - 1))) as [H|H].
  - split; [lia|]. exists (Z.of_N (n / 2 ^ w)). exact D.
  - split; [lia|]. exists (Z.of_N (n / 2 ^ w) + 1)%Z. rewrite D at 1. ring.
Qed.

Lemma truncated_unique w y z z' : 1 <= w -> truncated w y z -> truncated w y z' -> z = z'.
Proof.
  intros Hw (H & k & E) (H' & k' & E'). unfold in_i in *. pose proof (half_pow w Hw).
  assert ((z' - z = (k - k') * 2 ^ Z.of_N w)%Z) by lia.
  assert (k = k') by nia. subst. nia.
Qed.

Lemma as_i_as_u w z : 1 <= w -> exists k, as_i w (as_u w z) = (z + k * 2 ^ Z.of_N w)%Z.
Proof.
  intros Hw. destruct (as_i_trunc w (as_u w z) Hw) as (_ & k & E). rewrite as_u_mod in E.
  exists (- (z / 2 ^ Z.of_N w) - k)%Z.
  pose proof (Zpow_pos w). pose proof (Z.div_mod z (2 ^ Z.of_N w)). nia.
Qed.

Lemma as_i_exact w z n : 1 <= w -> in_i w z -> twos w z n -> as_i w n = z.
Proof.
  intros Hw Hz (Hn & k & E). apply (truncated_unique w (Z.of_N n)); [exact Hw | now apply as_i_trunc |].
  split; [exact Hz|]. exists (- k)%Z. lia.
Qed.

(* ------------------------------------------------------------------ *)
(* ZigZag. *)
Lemma sign_fill w z : 1 <= w -> in_i w z -> Z.shiftr z (Z.of_N w - 1) = (if (z <? 0)%Z then -1 else 0)%Z.
Proof.
  intros Hw Hz. unfold in_i in Hz. rewrite Z.shiftr_div_pow2 by lia.
  set (p := (2 ^ (Z.of_N w - 1))%Z) in *. destruct (Z.ltb_spec z 0).
  - symmetry. apply (Z.div_unique z p (-1) (z + p)); lia.
  - apply Z.div_small. lia.
Qed.

Lemma zigzag_encode w z : 1 <= w -> in_i w z ->
  as_u w (Z.lxor (as_i w (as_u w (Z.shiftl z 1))) (Z.shiftr z (Z.of_N w - 1))) = zigzag z.
Proof.
  intros Hw Hz. rewrite (sign_fill w z Hw Hz).
  destruct (as_i_as_u w (Z.shiftl z 1) Hw) as (k & E). rewrite E. clear E.
  rewrite Z.shiftl_mul_pow2 by lia. change (2 ^ 1)%Z with 2%Z.
  unfold in_i in Hz. pose proof (half_pow w Hw) as Hh. unfold zigzag.
  destruct (Z.ltb_spec z 0) as [Hn|Hn].
  - rewrite Z.lxor_m1_r. unfold Z.lnot. symmetry. apply twos_unique. split.
    + apply N2Z.inj_lt. rewrite N2Z.inj_pow, Z2N.id by lia. change (Z.of_N 2) with 2%Z. lia.
    + rewrite Z2N.id by lia. exists (- k)%Z. lia.
  - rewrite Z.lxor_0_r. symmetry. apply twos_unique. split.
    + apply N2Z.inj_lt. rewrite N2Z.inj_pow, Z2N.id by lia. change (Z.of_N 2) with 2%Z. lia.
    + rewrite Z2N.id by lia. exists k. lia.
Qed.

Lemma zigzag_bound w z : 1 <= w -> in_i w z -> zigzag z < 2 ^ w.
Proof.
  intros Hw Hz. rewrite <- (zigzag_encode w z Hw Hz). apply as_u_bound.
Qed.

Lemma unzigzag_zigzag z : unzigzag (zigzag z) = z.
Proof.
  unfold unzigzag, zigzag. destruct (Z.ltb_spec z 0) as [H|H].
  - replace (Z.to_N (-2 * z - 1)) with (2 * Z.to_N (- z - 1) + 1) by lia.
    replace (N.even (2 * Z.to_N (- z - 1) + 1)) with false.
    2:{ symmetry. rewrite N.add_comm, N.even_add_mul_2. reflexivity. }
    rewrite N.mul_comm, N.div_add_l by lia. rewrite (N.div_small 1) by lia. lia.
  - replace (Z.to_N (2 * z)) with (2 * Z.to_N z) by lia.
    replace (N.even (2 * Z.to_N z)) with true.
    2:{ symmetry. apply N.even_spec. now exists (Z.to_N z). }
    rewrite N.mul_comm, N.div_mul by lia. lia.
Qed.

Lemma unzigzag_decode w v : 1 < w ->
  truncated w (unzigzag v) (Z.lxor (as_i w (N.shiftr v 1)) (- as_i w (N.land v 1))).
Proof.
  intros Hw. rewrite N.shiftr_div_pow2. change (2 ^ 1) with 2.
  destruct (as_i_trunc w (v / 2)) as (Hi & k & E); [lia|].
  change (N.land v 1) with (N.land v (2 ^ 1 - 1)). rewrite land_ones_mod. change (2 ^ 1) with 2.
  assert (Hone : forall b, b < 2 -> as_i w b = Z.of_N b).
  { intros b Hb. apply as_i_exact; [lia| |].
    - unfold in_i. assert (2 <= 2 ^ (Z.of_N w - 1))%Z.
      { change 2%Z with (2 ^ 1)%Z at 1. apply Z.pow_le_mono_r; lia. }
      lia.
    - split; [|exists 0%Z; lia]. eapply N.lt_le_trans; [exact Hb|]. change 2 with (2 ^ 1) at 1.
      apply N.pow_le_mono_r; lia. }
  rewrite (Hone (v mod 2)) by (apply N.mod_lt; lia).
  unfold unzigzag. assert (Hb : N.even v = (v mod 2 =? 0)).
  { rewrite <- N.negb_odd, <- N.bit0_odd, <- N.bit0_mod. now destruct (N.testbit v 0). }
  rewrite Hb. assert (v mod 2 < 2) by (apply N.mod_lt; lia).
  destruct (N.eqb_spec (v mod 2) 0) as [H0|H0].
  - rewrite H0. change (- Z.of_N 0)%Z with 0%Z. rewrite Z.lxor_0_r. split; eauto.
  - replace (v mod 2) with 1 by lia. change (- Z.of_N 1)%Z with (-1)%Z.
    rewrite Z.lxor_m1_r. unfold Z.lnot. split.
    + unfold in_i in *. lia.
    + exists (- k)%Z. lia.
Qed.

(* ------------------------------------------------------------------ *)
(* Little endian. *)
Lemma to_le_little k v : v < 256 ^ N.of_nat k -> little k v (to_le k v).
Proof.
  revert v. induction k as [|k IH]; intros v Hv.
  - change (256 ^ N.of_nat 0) with 1 in Hv. repeat split; [constructor | cbn; lia].
  - rewrite Nat2N.inj_succ, N.pow_succ_r in Hv by lia.
    destruct (IH (v / 256)) as (Hl & Hb & Hv'); [apply N.div_lt_upper_bound; lia|].
    cbn [to_le]. rewrite N.shiftr_div_pow2. unfold wrap. change (2 ^ 8) with 256.
    repeat split.
    + cbn [length]. now rewrite Hl.
    + apply bytes_cons. split; [apply N.mod_lt; lia | exact Hb].
    + cbn [le_value]. rewrite Hv'. rewrite N.add_comm. symmetry. apply N.div_mod. lia.
Qed.

Lemma le_value_bound l : bytes l -> le_value l < 256 ^ N.of_nat (length l).
Proof.
  induction 1 as [|b l Hb Hl IH]; cbn [le_value length]; [reflexivity|].
  rewrite Nat2N.inj_succ, N.pow_succ_r by lia. unfold is_byte in Hb. lia.
Qed.

Lemma little_unique k v a b : little k v a -> little k v b -> a = b.
Proof.
  revert v a b. induction k as [|k IH]; intros v a b (La & Ba & Va) (Lb & Bb & Vb).
  - destruct a, b; simpl in *; try lia. reflexivity.
  - destruct a as [|x a], b as [|y b]; try discriminate. apply bytes_cons in Ba as [Hx Ba], Bb as [Hy Bb].
    cbn [le_value] in *. assert (x = y /\ le_value a = le_value b) as [-> E] by lia.
    f_equal. apply (IH (le_value a)); repeat split; auto; simpl in *; lia.
Qed.

Lemma from_le_value l : from_le l = le_value l.
Proof.
  induction l as [|b l IH]; [reflexivity|]. cbn [from_le le_value]. rewrite IH, N.shiftl_mul_pow2.
  change (2 ^ 8) with 256. lia.
Qed.

Lemma write_fixed_spec k v s bs : v < 256 ^ N.of_nat k -> little k v bs ->
  write_fixed (to_le k v) (N.of_nat k) s = delivered s bs.
Proof.
  intros Hv Hl. rewrite (little_unique k v bs (to_le k v) Hl (to_le_little k v Hv)).
  rewrite delivered_eq. unfold write_fixed. destruct (to_le_little k v Hv) as (-> & _). reflexivity.
Qed.

(* ------------------------------------------------------------------ *)
(* Primitive encoders. *)
Lemma prim_bool_spec v s bs : w_bool v bs -> prim_bool v s = delivered s bs.
Proof. intros H. apply pencode_varint_spec; [destruct v; reflexivity | exact H]. Qed.

Lemma int_twos w v n : in_i w v -> twos 64 v n -> n = as_u 64 v.
Proof. intros _. apply twos_unique. Qed.

Lemma prim_int_spec v s bs : w_int v bs -> pencode_varint (as_u 64 v) s = delivered s bs.
Proof.
  intros (n & Ht & Hs). apply twos_unique in Ht as ->. apply pencode_varint_spec; [apply as_u_bound | exact Hs].
Qed.

Lemma u32_64 v : u32_ok v -> v < 2 ^ 64.
Proof. unfold u32_ok. intros H. eapply N.lt_trans; [exact H|reflexivity]. Qed.

Lemma prim_sint32_spec v s bs : in_i 32 v -> w_sint v bs -> prim_sint32 v s = delivered s bs.
Proof.
  intros Hi Hs. unfold prim_sint32. change 31%Z with (Z.of_N 32 - 1)%Z.
  rewrite zigzag_encode by (auto; lia). apply pencode_varint_spec; [|exact Hs].
  apply u32_64, zigzag_bound; [lia|exact Hi].
Qed.

Lemma prim_sint64_spec v s bs : in_i 64 v -> w_sint v bs -> prim_sint64 v s = delivered s bs.
Proof.
  intros Hi Hs. unfold prim_sint64. change 63%Z with (Z.of_N 64 - 1)%Z.
  rewrite zigzag_encode by (auto; lia). apply pencode_varint_spec; [|exact Hs].
  apply zigzag_bound; [lia|exact Hi].
Qed.

Lemma prim_fixed32_spec v s bs : u32_ok v -> w_fixed 4 v bs -> prim_fixed32 v s = delivered s bs.
Proof. intros Hv H. exact (write_fixed_spec 4 v s bs Hv H). Qed.
Lemma prim_fixed64_spec v s bs : u64_ok v -> w_fixed 8 v bs -> prim_fixed64 v s = delivered s bs.
Proof. intros Hv H. exact (write_fixed_spec 8 v s bs Hv H). Qed.
Lemma prim_float_spec v s bs : u32_ok v -> w_fixed 4 v bs -> prim_float v s = delivered s bs.
Proof. intros Hv H. exact (write_fixed_spec 4 v s bs Hv H). Qed.
Lemma prim_double_spec v s bs : u64_ok v -> w_fixed 8 v bs -> prim_double v s = delivered s bs.
Proof. intros Hv H. exact (write_fixed_spec 8 v s bs Hv H). Qed.
Lemma prim_sfixed32_spec v s bs : w_sfixed 4 32 v bs -> prim_sfixed32 v s = delivered s bs.
Proof.
  intros (n & Ht & H). pose proof (proj1 Ht) as Hn. apply twos_unique in Ht as ->. exact (write_fixed_spec 4 (as_u 32 v) s bs Hn H).
Qed.
Lemma prim_sfixed64_spec v s bs : w_sfixed 8 64 v bs -> prim_sfixed64 v s = delivered s bs.
Proof.
  intros (n & Ht & H). pose proof (proj1 Ht) as Hn. apply twos_unique in Ht as ->. exact (write_fixed_spec 8 (as_u 64 v) s bs Hn H).
Qed.

Lemma prim_bytes_spec p len s : N.of_nat (length p) < 2 ^ 64 -> shortest (N.of_nat (length p)) len ->
  prim_bytes p s = delivered s (len ++ p).
Proof.
  intros Hp Hs. unfold prim_bytes. replace (2 ^ 64 - 1 <? N.of_nat (length p)) with false.
  2:{ symmetry. apply N.ltb_ge. change (2 ^ 64) with 18446744073709551616 in *. lia. }
  rewrite (pencode_varint_spec _ s len Hp Hs).
  rewrite <- (delivered_seq s len p (fun n k => k + n)) by (rewrite !app_length; lia).
  apply binds_ext. intros d n. rewrite delivered_eq, binds_assoc. reflexivity.
Qed.

Lemma prim_bytes_field tag t key p len s : N.of_nat (length p) < 2 ^ 64 -> shortest (N.of_nat (length p)) len ->
  (forall s, pencode_key tag t s = delivered s key) ->
  field_with tag t (prim_bytes p) s = delivered s (key ++ len ++ p).
Proof.
  intros Hp Hs Hk. unfold field_with. rewrite Hk.
  rewrite <- (delivered_seq s key (len ++ p) N.add) by (rewrite !app_length; lia).
  apply binds_ext. intros d n. now rewrite (prim_bytes_spec p len d Hp Hs).
Qed.

(* ------------------------------------------------------------------ *)
(* Keys. *)
Lemma lor_key tag n : 1 <= tag < 2 ^ 29 -> n < 8 -> N.lor (wrap 32 (N.shiftl tag 3)) n = 8 * tag + n.
Proof.
  intros Ht Hn. unfold wrap. rewrite N.shiftl_mul_pow2. rewrite N.mod_small.
  - rewrite lor_add_low by exact Hn. change (2 ^ 3) with 8. lia.
  - change (2 ^ 3) with 8. change (2 ^ 32) with 4294967296. change (2 ^ 29) with 536870912 in *. lia.
Qed.

Lemma wire_number_num t n : wire_number t n -> typ_num t = n /\ n < 8.
Proof. destruct t; cbn; intros H; subst; try (split; [reflexivity|lia]). contradiction. Qed.

Lemma pencode_key_spec tag t n key s : 1 <= tag < 2 ^ 29 -> wire_number t n -> shortest (8 * tag + n) key ->
  pencode_key tag t s = delivered s key.
Proof.
  intros Ht Hn Hs. apply wire_number_num in Hn as [E Hn]. unfold pencode_key, TAG_MIN, TAG_MAX.
  change (N.shiftl 1 29 - 1) with 536870911. change (2 ^ 29) with 536870912 in *.
  replace ((tag <? 1) || (536870911 <? tag)) with false by (symmetry; apply orb_false_intro; apply N.ltb_ge; lia).
  rewrite E, lor_key by (auto; change (2 ^ 29) with 536870912; lia). apply pencode_varint_spec; [|exact Hs].
  change (2 ^ 64) with 18446744073709551616. lia.
Qed.

Lemma pencode_key_bad tag t s : tag = 0 \/ 2 ^ 29 <= tag -> pencode_key tag t s = (s, Err PInvalidTag).
Proof.
  intros H. unfold pencode_key, TAG_MIN, TAG_MAX. change (N.shiftl 1 29 - 1) with 536870911. change (2 ^ 29) with 536870912 in *.
  replace ((tag <? 1) || (536870911 <? tag)) with true; [reflexivity|].
  symmetry. apply orb_true_intro. destruct H; [left|right]; apply N.ltb_lt; lia.
Qed.

(* ------------------------------------------------------------------ *)
(* Packed payloads. *)
Lemma encode_each_spec {A} (prim : A -> sink -> penc) (W : A -> list N -> Prop) vs parts :
  (forall v bs s, In v vs -> W v bs -> prim v s = delivered s bs) -> Forall2 W vs parts -> forall pre,
  encode_each prim vs (vec_sink pre) = (vec_sink (pre ++ concat parts), Ok tt).
Proof.
  intros Hp H. induction H as [|v bs vs parts Hv H IH]; intros pre; cbn [encode_each concat].
  - now rewrite app_nil_r.
  - rewrite (Hp v bs) by (auto; now left). rewrite delivered_vec. cbn [binds].
    rewrite IH by (intros; apply Hp; auto; now right). now rewrite app_assoc.
Qed.

Lemma pencode_vec_spec {A} (prim : A -> sink -> penc) (W : A -> list N -> Prop) tag vs p bs s :
  (forall v bs s, In v vs -> W v bs -> prim v s = delivered s bs) -> packed W vs p ->
  1 <= tag < 2 ^ 29 -> N.of_nat (length p) < 2 ^ 64 -> field_wire (tag, LengthDelimited, p) bs ->
  pencode_vec prim tag vs s = delivered s bs.
Proof.
  intros Hp (parts & H & ->) Ht Hlen (n & key & Hn & Hk & len & Hl & ->). unfold pencode_vec.
  rewrite (encode_each_spec prim W vs parts Hp H []). cbn [written vec_sink app].
  apply prim_bytes_field; auto. intros s'. eapply pencode_key_spec; eauto.
Qed.

Lemma field_with_spec tag t p prim bs s : t <> LengthDelimited ->
  1 <= tag < 2 ^ 29 -> (forall s, prim s = delivered s p) -> field_wire (tag, t, p) bs ->
  field_with tag t prim s = delivered s bs.
Proof.
  intros Hnl Ht Hp (n & key & Hn & Hk & Hm).
  assert (E : bs = key ++ p) by (destruct t; auto; congruence). subst bs.
  unfold field_with. rewrite (pencode_key_spec tag t n key s Ht Hn Hk).
  rewrite <- (delivered_seq s key p N.add) by (rewrite !app_length; lia).
  apply binds_ext. intros d k. now rewrite Hp.
Qed.

Lemma pencode_bytes_spec tag p bs s : 1 <= tag < 2 ^ 29 -> N.of_nat (length p) < 2 ^ 64 ->
  field_wire (tag, LengthDelimited, p) bs -> pencode_bytes tag p s = delivered s bs.
Proof.
  intros Ht Hp (n & key & Hn & Hk & len & Hl & ->). apply prim_bytes_field; auto.
  intros s'. eapply pencode_key_spec; eauto.
Qed.

(* C41 *)
Theorem pencode_spec tag l t p bs s : 1 <= tag < 2 ^ 29 -> lit_ok l -> lit_wire l t p ->
  N.of_nat (length p) < 2 ^ 64 -> field_wire (tag, t, p) bs -> pencode tag l s = delivered s bs.
Proof.
  intros Ht Hl Hw Hp Hf.
  destruct l; cbn [lit_ok lit_wire pencode] in *; destruct Hw as [-> Hw];
    try (eapply field_with_spec; [discriminate | exact Ht | intros s'; cbv beta | exact Hf]);
    try (eapply pencode_vec_spec; [intros v' bs' s' Hin; rewrite ?Forall_forall in Hl; try specialize (Hl _ Hin) | exact Hw | exact Ht | exact Hp | exact Hf]).
  - subst. now apply pencode_bytes_spec.
  - now apply prim_bool_spec.
  - now apply prim_bool_spec.
  - now apply prim_int_spec.
  - now apply prim_int_spec.
  - now apply prim_int_spec.
  - now apply prim_int_spec.
  - apply pencode_varint_spec; [now apply u32_64 | exact Hw].
  - apply pencode_varint_spec; now apply u32_64.
  - now apply pencode_varint_spec.
  - now apply pencode_varint_spec.
  - now apply prim_float_spec.
  - now apply prim_float_spec.
  - now apply prim_double_spec.
  - now apply prim_double_spec.
  - now apply prim_sint32_spec.
  - now apply prim_sint32_spec.
  - now apply prim_sint64_spec.
  - now apply prim_sint64_spec.
  - now apply prim_fixed32_spec.
  - now apply prim_fixed32_spec.
  - now apply prim_fixed64_spec.
  - now apply prim_fixed64_spec.
  - now apply prim_sfixed32_spec.
  - now apply prim_sfixed32_spec.
  - now apply prim_sfixed64_spec.
  - now apply prim_sfixed64_spec.
Qed.

(* Existence of the wire form. *)
Lemma packed_exists {A} (W : A -> list N -> Prop) vs : (forall v, In v vs -> exists bs, W v bs) -> exists p, packed W vs p.
Proof.
  intros H. induction vs as [|v vs IH].
  - exists [], []. split; [constructor|reflexivity].
  - destruct (H v (or_introl eq_refl)) as (b & Hb). destruct IH as (p & parts & Hp & ->).
    { intros w Hw. apply H. now right. }
    exists (concat (b :: parts)), (b :: parts). split; [now constructor|reflexivity].
Qed.

Lemma w_bool_ex v : exists bs, w_bool v bs.
Proof. destruct v; eexists; apply shortest_small; lia. Qed.
Lemma w_int_ex v : exists bs, w_int v bs.
Proof.
  destruct (shortest64 (as_u 64 v)) as (bs & H & _); [apply as_u_bound|].
  exists bs, (as_u 64 v). split; [apply twos_as_u|exact H].
Qed.
Lemma w_uint_ex v : v < 2 ^ 64 -> exists bs, w_uint v bs.
Proof. intros H. destruct (shortest64 v H) as (bs & Hb & _). eauto. Qed.
Lemma w_sint_ex w v : 1 <= w <= 64 -> in_i w v -> exists bs, w_sint v bs.
Proof.
  intros Hw Hi. apply w_uint_ex. eapply N.lt_le_trans; [apply (zigzag_bound w); [lia|exact Hi]|].
  apply N.pow_le_mono_r; lia.
Qed.
Lemma w_fixed_ex k v : v < 256 ^ N.of_nat k -> exists bs, w_fixed k v bs.
Proof. intros H. eexists. now apply to_le_little. Qed.
Lemma w_sfixed_ex k w v : 2 ^ w = 256 ^ N.of_nat k -> exists bs, w_sfixed k w v bs.
Proof.
  intros E. exists (to_le k (as_u w v)), (as_u w v). split; [apply twos_as_u|].
  apply to_le_little. rewrite <- E. apply as_u_bound.
Qed.

Lemma lit_wire_exists l : lit_ok l -> exists t p, lit_wire l t p.
Proof.
  intros Hl. destruct l; cbn [lit_ok lit_wire] in *; eexists;
    [ eexists; split; reflexivity |..];
    match goal with
    | |- exists p, _ = _ /\ packed ?W ?v p =>
        destruct (packed_exists W v) as (p & Hp); [intros w Hw; rewrite ?Forall_forall in Hl; try specialize (Hl _ Hw) | exists p; split; [reflexivity|exact Hp]]
    | |- exists p, _ = _ /\ ?Q =>
        idtac
    end;
    try apply w_bool_ex; try apply w_int_ex;
    try (apply w_uint_ex; first [exact Hl | now apply u32_64]);
    try (apply (w_sint_ex 32); [lia|exact Hl]); try (apply (w_sint_ex 64); [lia|exact Hl]);
    try (apply w_fixed_ex; exact Hl); try (apply w_sfixed_ex; reflexivity).
  - destruct (w_bool_ex v) as (p & H). eauto.
  - destruct (w_int_ex v) as (p & H). eauto.
  - destruct (w_int_ex v) as (p & H). eauto.
  - destruct (w_uint_ex v) as (p & H); [now apply u32_64|]. eauto.
  - destruct (w_uint_ex v) as (p & H); [exact Hl|]. eauto.
  - destruct (w_fixed_ex 4 v) as (p & H); [exact Hl|]. eauto.
  - destruct (w_fixed_ex 8 v) as (p & H); [exact Hl|]. eauto.
  - destruct (w_sint_ex 32 v) as (p & H); [lia|exact Hl|]. eauto.
  - destruct (w_sint_ex 64 v) as (p & H); [lia|exact Hl|]. eauto.
  - destruct (w_fixed_ex 4 v) as (p & H); [exact Hl|]. eauto.
  - destruct (w_fixed_ex 8 v) as (p & H); [exact Hl|]. eauto.
  - destruct (w_sfixed_ex 4 32 v) as (p & H); [reflexivity|]. eauto.
  - destruct (w_sfixed_ex 8 64 v) as (p & H); [reflexivity|]. eauto.
Qed.

Lemma lit_wire_typ l t p : lit_wire l t p -> exists n, wire_number t n.
Proof. destruct l; cbn; intros [-> _]; eexists; reflexivity. Qed.

Lemma field_wire_exists tag t p n : 1 <= tag < 2 ^ 29 -> wire_number t n -> N.of_nat (length p) < 2 ^ 64 ->
  exists bs, field_wire (tag, t, p) bs.
Proof.
  intros Ht Hn Hp. destruct (shortest64 (8 * tag + n)) as (key & Hk & _).
  { apply wire_number_num in Hn as [_ Hn]. change (2 ^ 29) with 536870912 in *. change (2 ^ 64) with 18446744073709551616. lia. }
  destruct (shortest64 _ Hp) as (len & Hl & _).
  destruct t; try contradiction; unfold field_wire.
  - exists (key ++ p), n, key. auto.
  - exists (key ++ p), n, key. auto.
  - exists (key ++ len ++ p), n, key. split; [exact Hn|]. split; [exact Hk|]. eauto.
  - exists (key ++ p), n, key. auto.
Qed.

Lemma field_wire_unique f a b : field_wire f a -> field_wire f b -> a = b.
Proof.
  destruct f as [[tag t] p]. intros (n & k & Hn & Hk & Ha) (n' & k' & Hn' & Hk' & Hb).
  assert (n = n') as <- by (destruct t; cbn in *; congruence || contradiction).
  rewrite (shortest_unique _ _ _ Hk' Hk) in Hb.
  destruct t; try congruence.
  destruct Ha as (l & Hl & ->), Hb as (l' & Hl' & ->). now rewrite (shortest_unique _ _ _ Hl Hl').
Qed.

(* Invalid tags. *)
Lemma encode_each_ok {A} (prim : A -> sink -> penc) (W : A -> list N -> Prop) vs :
  (forall v, In v vs -> exists bs, W v bs) ->
  (forall v bs s, In v vs -> W v bs -> prim v s = delivered s bs) ->
  exists p, encode_each prim vs (vec_sink []) = (vec_sink p, Ok tt).
Proof.
  intros H H'. destruct (packed_exists W vs H) as (p & parts & Hp & _).
  eexists. exact (encode_each_spec prim W vs parts H' Hp []).
Qed.

Lemma pencode_vec_bad {A} (prim : A -> sink -> penc) (W : A -> list N -> Prop) tag vs s :
  (forall v, In v vs -> exists bs, W v bs) ->
  (forall v bs s, In v vs -> W v bs -> prim v s = delivered s bs) ->
  tag = 0 \/ 2 ^ 29 <= tag -> pencode_vec prim tag vs s = (s, Err PInvalidTag).
Proof.
  intros H H' Ht. unfold pencode_vec. destruct (encode_each_ok prim W vs H H') as (p & ->).
  unfold pencode_bytes, field_with. now rewrite pencode_key_bad.
Qed.

Lemma pencode_bad_tag tag l s : lit_ok l -> tag = 0 \/ 2 ^ 29 <= tag -> pencode tag l s = (s, Err PInvalidTag).
Proof.
  intros Hl Ht. destruct l; cbn [lit_ok pencode] in *; rewrite ?Forall_forall in Hl;
    try (unfold pencode_bytes, field_with; now rewrite pencode_key_bad).
  - apply (pencode_vec_bad _ w_bool); auto; intros; [apply w_bool_ex | now apply prim_bool_spec].
  - apply (pencode_vec_bad _ w_int); auto; intros; [apply w_int_ex | now apply prim_int_spec].
  - apply (pencode_vec_bad _ w_int); auto; intros; [apply w_int_ex | now apply prim_int_spec].
  - apply (pencode_vec_bad _ w_uint); auto; intros; [apply w_uint_ex | apply pencode_varint_spec]; auto; apply u32_64; auto.
  - apply (pencode_vec_bad _ w_uint); auto; intros; [apply w_uint_ex | apply pencode_varint_spec]; auto; apply Hl; auto.
  - apply (pencode_vec_bad _ (w_fixed 4)); auto; intros; [apply w_fixed_ex | apply prim_float_spec]; auto; apply Hl; auto.
  - apply (pencode_vec_bad _ (w_fixed 8)); auto; intros; [apply w_fixed_ex | apply prim_double_spec]; auto; apply Hl; auto.
  - apply (pencode_vec_bad _ w_sint); auto; intros; [apply (w_sint_ex 32); [lia|] | apply prim_sint32_spec]; auto.
  - apply (pencode_vec_bad _ w_sint); auto; intros; [apply (w_sint_ex 64); [lia|] | apply prim_sint64_spec]; auto.
  - apply (pencode_vec_bad _ (w_fixed 4)); auto; intros; [apply w_fixed_ex | apply prim_fixed32_spec]; auto; apply Hl; auto.
  - apply (pencode_vec_bad _ (w_fixed 8)); auto; intros; [apply w_fixed_ex | apply prim_fixed64_spec]; auto; apply Hl; auto.
  - apply (pencode_vec_bad _ (w_sfixed 4 32)); auto; intros; [apply w_sfixed_ex; reflexivity | now apply prim_sfixed32_spec].
  - apply (pencode_vec_bad _ (w_sfixed 8 64)); auto; intros; [apply w_sfixed_ex; reflexivity | now apply prim_sfixed64_spec].
Qed.
