(* Integers (RFC 7541 section 5.1). *)
From Verif Require Import Base HuffModel Leb HpackModel HpackSpec.
Open Scope N_scope.

Lemma all_below (n : nat) (P : N -> bool) :
  forallb P (map N.of_nat (seq 0 n)) = true -> forall a, a < N.of_nat n -> P a = true.
Proof.
  intros H a Ha. rewrite forallb_forall in H. apply H.
  apply in_map_iff. exists (N.to_nat a). split; [apply N2Nat.id|]. apply in_seq. lia.
Qed.

Definition prefix_ok (p : N) : Prop := 1 <= p <= 8.

Lemma prefix_cases p : prefix_ok p -> p = 1 \/ p = 2 \/ p = 3 \/ p = 4 \/ p = 5 \/ p = 6 \/ p = 7 \/ p = 8.
Proof. unfold prefix_ok. lia. Qed.

Lemma prefix_test p : prefix_ok p -> (p <? 1) || (8 <? p) = false.
Proof. intros [H1 H2]. apply orb_false_iff. split; apply N.ltb_ge; lia. Qed.

Lemma mask_eq p : prefix_ok p -> wrap 8 (N.shiftl 1 p - 1) = 2 ^ p - 1.
Proof. intros H. destruct (prefix_cases p H) as [->|[->|[->|[->|[->|[->|[->| ->]]]]]]]; reflexivity. Qed.

Lemma mask_pos p : prefix_ok p -> 2 <= 2 ^ p <= 256.
Proof. intros H. destruct (prefix_cases p H) as [->|[->|[->|[->|[->|[->|[->| ->]]]]]]]; compute; split; discriminate. Qed.

Lemma flags_eq p f : prefix_ok p -> f < 256 -> N.land f (255 - (2 ^ p - 1)) = f / 2 ^ p * 2 ^ p.
Proof.
  intros Hp Hf. apply N.eqb_eq.
  assert (H : forall q, In q [1;2;3;4;5;6;7;8] ->
     forallb (fun f => N.land f (255 - (2 ^ q - 1)) =? f / 2 ^ q * 2 ^ q) (map N.of_nat (seq 0 256)) = true).
  { intros q Hq. simpl in Hq. repeat (destruct Hq as [<-|Hq]; [vm_compute; reflexivity|]). destruct Hq. }
  apply (all_below 256 (fun f => N.land f (255 - (2 ^ p - 1)) =? f / 2 ^ p * 2 ^ p)); [|exact Hf].
  apply H. destruct (prefix_cases p Hp) as [->|[->|[->|[->|[->|[->|[->| ->]]]]]]]; simpl; tauto.
Qed.

Lemma lor_low p hi v : v < 2 ^ p -> N.lor (hi * 2 ^ p) v = hi * 2 ^ p + v.
Proof. apply lor_add_low. Qed.

Lemma group_eq v : N.lor 128 (wrap 8 v) = 128 + v mod 128.
Proof.
  unfold wrap. change (2 ^ 8) with 256.
  assert (H : v mod 256 < 256) by (apply N.mod_lt; lia).
  assert (E : (v mod 256) mod 128 = v mod 128).
  { replace 256 with (128 * 2) by reflexivity. rewrite N.mod_mul_r by lia.
    rewrite N.mul_comm, N.mod_add by lia. apply N.mod_mod. lia. }
  rewrite <- E. apply N.eqb_eq.
  refine (all_below 256 (fun b => N.lor 128 b =? 128 + b mod 128) _ _ H).
  vm_compute. reflexivity.
Qed.

Lemma encode_tail_ok fuel : forall v dst, v < 128 ^ N.of_nat (S fuel) ->
  exists t, encode_integer_tail fuel v dst = (dst ++ t, Ok tt) /\ leb128 t v /\
            (length t = 1%nat \/ 128 ^ N.of_nat (length t - 1) <= v).
Proof.
  induction fuel as [|fuel IH]; intros v dst Hv; simpl.
  - change (128 ^ N.of_nat 1) with 128 in Hv.
    destruct (128 <=? v) eqn:E; [apply N.leb_le in E; lia|].
    exists [v]. unfold wrap. rewrite N.mod_small by (change (2 ^ 8) with 256; lia).
    repeat split; [constructor; lia | left; reflexivity].
  - destruct (128 <=? v) eqn:E.
    + apply N.leb_le in E. rewrite group_eq, N.shiftr_div_pow2.
      change (2 ^ 7) with 128.
      assert (Hq : v / 128 < 128 ^ N.of_nat (S fuel)).
      { apply N.div_lt_upper_bound; [lia|]. rewrite <- N.pow_succ_r by lia.
        rewrite <- Nat2N.inj_succ. exact Hv. }
      destruct (IH (v / 128) (dst ++ [128 + v mod 128]) Hq) as (t & Ht & Hl & Hd).
      exists ((128 + v mod 128) :: t). split; [|split].
      * rewrite Ht, <- app_assoc. reflexivity.
      * replace v with (v mod 128 + 128 * (v / 128)) at 2.
        2:{ pose proof (N.div_mod v 128). lia. }
        constructor; [apply N.mod_lt; lia | exact Hl].
      * right. simpl length. replace (S (length t) - 1)%nat with (length t) by lia.
        assert (Hdm := N.div_mod v 128 ltac:(lia)).
        destruct Hd as [Hd|Hd].
        -- rewrite Hd. change (128 ^ N.of_nat 1) with 128. lia.
        -- assert (length t <> 0%nat) by (destruct Hl; simpl; lia).
           replace (N.of_nat (length t)) with (N.succ (N.of_nat (length t - 1))) by lia.
           rewrite N.pow_succ_r by lia. lia.
    + apply N.leb_gt in E. exists [v]. unfold wrap. rewrite N.mod_small by (change (2 ^ 8) with 256; lia).
      repeat split; [constructor; lia | left; reflexivity].
Qed.

Lemma int_wire_le lim lim' p hi bs v : int_wire lim p hi bs v -> (length bs <= lim')%nat -> int_wire lim' p hi bs v.
Proof. intros H L. inversion H; subst; constructor; auto. Qed.

Lemma int_wire_len lim p hi bs v : int_wire lim p hi bs v -> (1 <= length bs <= lim)%nat.
Proof. intros H. inversion H; subst; simpl; lia. Qed.

Lemma int_wire_bytes lim p hi bs v : prefix_ok p -> hi * 2 ^ p + (2 ^ p - 1) < 256 -> int_wire lim p hi bs v -> bytes bs.
Proof.
  intros Hp Hh H. inversion H; subst.
  - apply bytes_cons. split; [lia|constructor].
  - apply bytes_cons. split; [lia|]. eapply leb_bytes; eauto.
Qed.

Lemma hi_bound p f : prefix_ok p -> f < 256 -> f / 2 ^ p * 2 ^ p + (2 ^ p - 1) < 256.
Proof.
  intros Hp Hf. pose proof (mask_pos p Hp).
  assert (E : 2 ^ p * 2 ^ (8 - p) = 256).
  { rewrite <- N.pow_add_r. replace (p + (8 - p)) with 8 by (unfold prefix_ok in Hp; lia). reflexivity. }
  assert (f / 2 ^ p < 2 ^ (8 - p)).
  { apply N.div_lt_upper_bound; [lia|]. rewrite E. exact Hf. }
  nia.
Qed.

Lemma int_wire_bytes_hi lim p f bs v : prefix_ok p -> f < 256 -> int_wire lim p (f / 2 ^ p) bs v -> bytes bs.
Proof. intros. eapply int_wire_bytes; eauto. apply hi_bound; auto. Qed.

(* The encoder: the shortest RFC encoding. *)
Lemma encode_integer_ok v f p dst : prefix_ok p -> f < 256 -> v < 2 ^ 32 ->
  exists bs, encode_integer v f p dst = (dst ++ bs, Ok tt) /\
    int_wire 6 p (f / 2 ^ p) bs v /\
    (v < 2 ^ p - 1 + 2 ^ 28 -> (length bs <= 5)%nat) /\
    (2 ^ p - 1 + 2 ^ 28 <= v -> length bs = 6%nat) /\
    (forall lim bs', int_wire lim p (f / 2 ^ p) bs' v -> (length bs <= length bs')%nat).
Proof.
  intros Hp Hf Hv. unfold encode_integer.
  rewrite (prefix_test p Hp), (mask_eq p Hp), (flags_eq p f Hp Hf).
  pose proof (mask_pos p Hp) as Hm.
  destruct (v <? 2 ^ p - 1) eqn:E.
  - apply N.ltb_lt in E. unfold wrap. rewrite N.mod_small by (change (2 ^ 8) with 256; lia).
    rewrite lor_low by lia. exists [f / 2 ^ p * 2 ^ p + v]. repeat split.
    + constructor; lia.
    + simpl; lia.
    + intros. lia.
    + intros lim bs' H. apply int_wire_len in H. simpl. lia.
  - apply N.ltb_ge in E. rewrite lor_low by lia.
    destruct (encode_tail_ok 5 (v - (2 ^ p - 1)) (dst ++ [f / 2 ^ p * 2 ^ p + (2 ^ p - 1)])) as (t & Ht & Hl & Hd).
    { change (128 ^ N.of_nat 6) with 4398046511104. change (2 ^ 32) with 4294967296 in Hv. lia. }
    change (128 ^ N.of_nat (S 5)) with (128 ^ 6) in *.
    assert (Hlen : (length t <= 5)%nat).
    { destruct Hd as [Hd|Hd]; [lia|].
      destruct (Nat.le_gt_cases (length t) 5) as [|Hgt]; [assumption|]. exfalso.
      assert (128 ^ 5 <= 128 ^ N.of_nat (length t - 1)) by (apply N.pow_le_mono_r; lia).
      change (128 ^ 5) with 34359738368 in *. change (2 ^ 32) with 4294967296 in Hv. lia. }
    exists ((f / 2 ^ p * 2 ^ p + (2 ^ p - 1)) :: t). split; [|split; [|split; [|split]]].
    + rewrite Ht, <- app_assoc. reflexivity.
    + replace v with (2 ^ p - 1 + (v - (2 ^ p - 1))) at 1 by lia. constructor; [exact Hl|lia].
    + intros Hs. simpl. destruct Hd as [Hd|Hd]; [lia|].
      destruct (Nat.le_gt_cases (length t) 4) as [|Hgt]; [lia|]. exfalso.
      assert (128 ^ 4 <= 128 ^ N.of_nat (length t - 1)) by (apply N.pow_le_mono_r; lia).
      change (128 ^ 4) with (2 ^ 28) in *. lia.
    + intros Hb. simpl. apply leb_bound in Hl.
      destruct (Nat.le_gt_cases (length t) 4) as [Hle|Hgt]; [|lia]. exfalso.
      assert (128 ^ N.of_nat (length t) <= 128 ^ 4) by (apply N.pow_le_mono_r; lia).
      change (128 ^ 4) with (2 ^ 28) in *. lia.
    + intros lim bs' H. inversion H as [v' Hs Hl'|t' r Ht' Hl' Eb Er]; [subst; lia|].
      simpl. apply le_n_S. apply (leb_min_intro t (v - (2 ^ p - 1)) Hl Hd).
      replace (v - (2 ^ p - 1)) with r by lia. assumption.
Qed.

Lemma encode_integer_bad_prefix v f p dst : ~ prefix_ok p ->
  encode_integer v f p dst = (dst, Err EInvalidPrefix).
Proof.
  intros H. unfold encode_integer.
  replace ((p <? 1) || (8 <? p)) with true; [reflexivity|].
  symmetry. apply orb_true_iff. unfold prefix_ok in H.
  destruct (N.lt_ge_cases p 1); [left|right]; apply N.ltb_lt; lia.
Qed.

(* ------------------------------------------------------------------ *)
(* The decoder. *)

Lemma land127 b : N.land b 127 = b mod 128.
Proof. change 127 with (2 ^ 7 - 1). apply land_ones_mod. Qed.

Lemma land128 b : b < 256 -> (N.land b 128 =? 0) = (b <? 128).
Proof.
  intros H. apply Bool.eqb_prop.
  refine (all_below 256 (fun b => Bool.eqb (N.land b 128 =? 0) (b <? 128)) _ b H).
  vm_compute. reflexivity.
Qed.

Lemma tail_ok t r : leb128 t r -> forall rest value shift total,
  (total + N.of_nat (length t) <= 5) ->
  decode_integer_tail (t ++ rest) value shift total =
    Ok (value + r * 2 ^ shift, total + N.of_nat (length t)).
Proof.
  induction 1 as [b Hb|b t r Hb Ht IH]; intros rest value shift total Hl.
  - cbn [app decode_integer_tail]. rewrite land127, land128 by lia.
    replace (b <? 128) with true by (symmetry; apply N.ltb_lt; lia).
    rewrite N.mod_small, N.shiftl_mul_pow2 by lia. reflexivity.
  - cbn [app decode_integer_tail]. rewrite land127, land128 by lia.
    replace (128 + b <? 128) with false by (symmetry; apply N.ltb_ge; lia).
    simpl length in Hl.
    assert (Hn : length t <> 0%nat) by (destruct Ht; simpl; lia).
    replace (total + 1 =? 5) with false by (symmetry; apply N.eqb_neq; lia).
    rewrite IH by lia. simpl length.
    replace ((128 + b) mod 128) with b.
    2:{ replace (128 + b) with (b + 1 * 128) by lia. rewrite N.mod_add by lia. symmetry. apply N.mod_small. lia. }
    rewrite N.shiftl_mul_pow2, N.pow_add_r. change (2 ^ 7) with 128.
    f_equal. f_equal; [ring | lia].
Qed.

Lemma tail_panic t : continued t -> forall value shift total,
  total + N.of_nat (length t) < 5 ->
  decode_integer_tail t value shift total = Panic.
Proof.
  induction 1 as [|b t Hb Ht IH]; intros value shift total Hl; [reflexivity|].
  simpl length in Hl. cbn [decode_integer_tail]. rewrite land128 by lia.
  replace (b <? 128) with false by (symmetry; apply N.ltb_ge; lia).
  replace (total + 1 =? 5) with false by (symmetry; apply N.eqb_neq; lia).
  apply IH. lia.
Qed.

Lemma tail_overflow t : continued t -> forall rest value shift total,
  total < 5 -> total + N.of_nat (length t) = 5 ->
  decode_integer_tail (t ++ rest) value shift total = Err DIntegerOverflow.
Proof.
  induction 1 as [|b t Hb Ht IH]; intros rest value shift total H5 Hl; simpl length in Hl; [lia|].
  cbn [app decode_integer_tail]. rewrite land128 by lia.
  replace (b <? 128) with false by (symmetry; apply N.ltb_ge; lia).
  destruct (total + 1 =? 5) eqn:E; [reflexivity|]. apply N.eqb_neq in E.
  apply IH; lia.
Qed.

Lemma first_octet b p : prefix_ok p -> b < 256 -> b = b / 2 ^ p * 2 ^ p + N.land b (2 ^ p - 1).
Proof.
  intros Hp _. rewrite land_ones_mod. pose proof (mask_pos p Hp).
  rewrite N.mul_comm. apply N.div_mod. lia.
Qed.

Lemma land_low p hi v : prefix_ok p -> v < 2 ^ p -> N.land (hi * 2 ^ p + v) (2 ^ p - 1) = v.
Proof.
  intros Hp Hv. pose proof (mask_pos p Hp). rewrite land_ones_mod, N.add_comm, N.mod_add by lia.
  apply N.mod_small. exact Hv.
Qed.

Lemma div_low p hi v : prefix_ok p -> v < 2 ^ p -> (hi * 2 ^ p + v) / 2 ^ p = hi.
Proof.
  intros Hp Hv. pose proof (mask_pos p Hp). rewrite N.div_add_l by lia.
  rewrite (N.div_small v) by lia. lia.
Qed.

Lemma decode_integer_wire p hi bs v rest : prefix_ok p -> int_wire 5 p hi bs v ->
  decode_integer (bs ++ rest) p = Ok (v, N.of_nat (length bs)).
Proof.
  intros Hp H. pose proof (mask_pos p Hp) as Hm.
  inversion H as [v' Hs Hl|t r Ht Hl]; subst; unfold decode_integer; rewrite (prefix_test p Hp); simpl app; cbn iota.
  - rewrite (mask_eq p Hp), land_low by (auto; lia).
    replace (v <? 2 ^ p - 1) with true by (symmetry; apply N.ltb_lt; lia). reflexivity.
  - rewrite (mask_eq p Hp), land_low by (auto; lia).
    rewrite N.ltb_irrefl, (tail_ok t r Ht) by lia. simpl length.
    change (2 ^ 0) with 1. f_equal. f_equal; lia.
Qed.

Lemma decode_integer_cut p hi bs : prefix_ok p -> cut_int p hi bs -> decode_integer bs p = Panic.
Proof.
  intros Hp (t & -> & Hc & Hl). pose proof (mask_pos p Hp) as Hm.
  unfold decode_integer. rewrite (prefix_test p Hp), (mask_eq p Hp), land_low by (auto; lia).
  cbn iota. rewrite N.ltb_irrefl. apply tail_panic; [exact Hc|lia].
Qed.

Lemma decode_integer_long p hi bs : prefix_ok p -> long_int p hi bs -> decode_integer bs p = Err DIntegerOverflow.
Proof.
  intros Hp (t & rest & -> & Hc & Hl). pose proof (mask_pos p Hp) as Hm.
  unfold decode_integer. rewrite (prefix_test p Hp), (mask_eq p Hp), land_low by (auto; lia).
  cbn iota. rewrite N.ltb_irrefl. apply tail_overflow; [exact Hc|lia|lia].
Qed.

(* Every byte string falls in exactly one case; [hi] is read off the first octet. *)
Inductive int_case (p : N) (buf : list N) : Prop :=
| ic_ok bs v rest : buf = bs ++ rest -> int_wire 5 p (hd 0 buf / 2 ^ p) bs v -> int_case p buf
| ic_empty : buf = [] -> int_case p buf
| ic_cut : cut_int p (hd 0 buf / 2 ^ p) buf -> int_case p buf
| ic_long : long_int p (hd 0 buf / 2 ^ p) buf -> int_case p buf.

Lemma int_cases p buf : prefix_ok p -> bytes buf -> int_case p buf.
Proof.
  intros Hp Hb. pose proof (mask_pos p Hp) as Hm. destruct buf as [|b rest]; [apply ic_empty; reflexivity|].
  apply bytes_cons in Hb as [Hb Hr].
  pose proof (first_octet b p Hp Hb) as E.
  assert (Hlt : N.land b (2 ^ p - 1) < 2 ^ p) by (rewrite land_ones_mod; apply N.mod_lt; lia).
  destruct (N.lt_ge_cases (N.land b (2 ^ p - 1)) (2 ^ p - 1)) as [Hs|Hs].
  - apply (ic_ok p _ [b] (N.land b (2 ^ p - 1)) rest); [reflexivity|]. simpl hd.
    set (hi := b / 2 ^ p) in *. set (v := N.land b (2 ^ p - 1)) in *. clearbody hi v. subst b.
    constructor; [exact Hs|lia].
  - assert (E2 : b = b / 2 ^ p * 2 ^ p + (2 ^ p - 1)) by lia.
    destruct (leb_scan 4 rest Hr) as [(t & r & rest' & -> & Ht & Hl)|[(Hc & Hl)|(t & rest' & -> & Hc & Hl)]].
    + apply (ic_ok p _ (b :: t) (2 ^ p - 1 + r) rest'); [reflexivity|]. simpl hd.
      remember (b / 2 ^ p) as hi. rewrite E2. constructor; [exact Ht|lia].
    + apply ic_cut. simpl hd. exists rest. rewrite <- E2. repeat split; [exact Hc|lia].
    + apply ic_long. simpl hd. exists t, rest'. rewrite <- E2. repeat split; [exact Hc|lia].
Qed.

Lemma cut_hd p hi bs : prefix_ok p -> cut_int p hi bs -> hi = hd 0 bs / 2 ^ p.
Proof.
  intros Hp (t & -> & _). pose proof (mask_pos p Hp). simpl hd. rewrite div_low by (auto; lia). reflexivity.
Qed.
Lemma long_hd p hi bs : prefix_ok p -> long_int p hi bs -> hi = hd 0 bs / 2 ^ p.
Proof.
  intros Hp (t & r & -> & _). pose proof (mask_pos p Hp). simpl hd. rewrite div_low by (auto; lia). reflexivity.
Qed.
Lemma wire_hd lim p hi bs v rest : prefix_ok p -> int_wire lim p hi bs v -> hi = hd 0 (bs ++ rest) / 2 ^ p.
Proof.
  intros Hp H. pose proof (mask_pos p Hp). inversion H; subst; simpl hd; rewrite div_low by (auto; lia); reflexivity.
Qed.

Lemma decode_integer_empty p : prefix_ok p -> decode_integer [] p = Err DIntegerUnderflow.
Proof. intros Hp. unfold decode_integer. rewrite (prefix_test p Hp). reflexivity. Qed.

(* The decoder's verdicts, exactly. *)
Lemma decode_integer_iff p buf v n : prefix_ok p -> bytes buf ->
  (decode_integer buf p = Ok (v, n) <->
   exists hi bs rest, buf = bs ++ rest /\ int_wire 5 p hi bs v /\ n = N.of_nat (length bs)).
Proof.
  intros Hp Hb. split.
  - intros H. destruct (int_cases p buf Hp Hb) as [bs w rest E Hw|E|Hc|Hl].
    + rewrite E, (decode_integer_wire p _ bs w rest Hp Hw) in H. injection H as <- <-. eauto 6.
    + rewrite E, decode_integer_empty in H by auto. discriminate.
    + rewrite (decode_integer_cut _ _ _ Hp Hc) in H. discriminate.
    + rewrite (decode_integer_long _ _ _ Hp Hl) in H. discriminate.
  - intros (hi & bs & rest & -> & Hw & ->). apply (decode_integer_wire p hi); auto.
Qed.

Lemma decode_integer_panic_iff p buf : prefix_ok p -> bytes buf ->
  (decode_integer buf p = Panic <-> exists hi, cut_int p hi buf).
Proof.
  intros Hp Hb. split; [|intros [hi H]; eapply decode_integer_cut; eauto].
  intros H. destruct (int_cases p buf Hp Hb) as [bs w rest E Hw|E|Hc|Hl]; eauto.
  - rewrite E, (decode_integer_wire p _ bs w rest Hp Hw) in H. discriminate.
  - rewrite E, decode_integer_empty in H by auto. discriminate.
  - rewrite (decode_integer_long _ _ _ Hp Hl) in H. discriminate.
Qed.

Lemma decode_integer_err_iff p buf e : prefix_ok p -> bytes buf ->
  (decode_integer buf p = Err e <->
   (buf = [] /\ e = DIntegerUnderflow) \/ ((exists hi, long_int p hi buf) /\ e = DIntegerOverflow)).
Proof.
  intros Hp Hb. split.
  - intros H. destruct (int_cases p buf Hp Hb) as [bs w rest E Hw|E|Hc|Hl].
    + rewrite E, (decode_integer_wire p _ bs w rest Hp Hw) in H. discriminate.
    + rewrite E, decode_integer_empty in H by auto. injection H as <-. auto.
    + rewrite (decode_integer_cut _ _ _ Hp Hc) in H. discriminate.
    + rewrite (decode_integer_long _ _ _ Hp Hl) in H. injection H as <-. eauto.
  - intros [[-> ->]|[[hi H] ->]]; [apply decode_integer_empty; auto|eapply decode_integer_long; eauto].
Qed.

Lemma decode_integer_bad_prefix buf p : ~ prefix_ok p -> decode_integer buf p = Err DInvalidPrefix.
Proof.
  intros H. unfold decode_integer.
  replace ((p <? 1) || (8 <? p)) with true; [reflexivity|].
  symmetry. apply orb_true_iff. unfold prefix_ok in H.
  destruct (N.lt_ge_cases p 1); [left|right]; apply N.ltb_lt; lia.
Qed.

Lemma int_wire_bound p hi bs v : prefix_ok p -> int_wire 5 p hi bs v -> v < 2 ^ p - 1 + 2 ^ 28.
Proof.
  intros Hp H. pose proof (mask_pos p Hp). inversion H as [v' Hs Hl|t r Ht Hl]; subst.
  - lia.
  - apply leb_bound in Ht.
    assert (128 ^ N.of_nat (length t) <= 128 ^ 4) by (apply N.pow_le_mono_r; lia).
    change (128 ^ 4) with (2 ^ 28) in *. lia.
Qed.

Lemma decode_integer_u32 p buf v n : prefix_ok p -> bytes buf ->
  decode_integer buf p = Ok (v, n) -> v < 2 ^ p - 1 + 2 ^ 28 /\ 1 <= n <= 5 /\ n <= N.of_nat (length buf).
Proof.
  intros Hp Hb H. apply decode_integer_iff in H as (hi & bs & rest & -> & Hw & ->); auto.
  split; [eapply int_wire_bound; eauto|].
  apply int_wire_len in Hw. rewrite app_length. lia.
Qed.

(* A leading integer determines its octets and value. *)
Lemma int_wire_unique p hi hi' lim lim' a v b w x y : prefix_ok p ->
  int_wire lim p hi a v -> int_wire lim' p hi' b w -> a ++ x = b ++ y -> a = b /\ v = w /\ x = y /\ hi = hi'.
Proof.
  intros Hp Ha Hb E. pose proof (mask_pos p Hp) as Hm.
  inversion Ha as [v1 Hs1 Hl1|t1 r1 Ht1 Hl1]; subst; inversion Hb as [v2 Hs2 Hl2|t2 r2 Ht2 Hl2]; subst;
    simpl in E; injection E as E1 E2.
  - assert (L1 : N.land (hi * 2 ^ p + v) (2 ^ p - 1) = v) by (apply land_low; auto; lia).
    assert (L2 : N.land (hi' * 2 ^ p + w) (2 ^ p - 1) = w) by (apply land_low; auto; lia).
    assert (D1 : (hi * 2 ^ p + v) / 2 ^ p = hi) by (apply div_low; auto; lia).
    assert (D2 : (hi' * 2 ^ p + w) / 2 ^ p = hi') by (apply div_low; auto; lia).
    rewrite E1 in L1, D1. subst. repeat split; auto; congruence.
  - exfalso. assert (L1 : N.land (hi * 2 ^ p + v) (2 ^ p - 1) = v) by (apply land_low; auto; lia).
    assert (L2 : N.land (hi' * 2 ^ p + (2 ^ p - 1)) (2 ^ p - 1) = 2 ^ p - 1) by (apply land_low; auto; lia).
    rewrite E1 in L1. lia.
  - exfalso. assert (L1 : N.land (hi' * 2 ^ p + w) (2 ^ p - 1) = w) by (apply land_low; auto; lia).
    assert (L2 : N.land (hi * 2 ^ p + (2 ^ p - 1)) (2 ^ p - 1) = 2 ^ p - 1) by (apply land_low; auto; lia).
    rewrite E1 in L2. lia.
  - assert (D1 : (hi * 2 ^ p + (2 ^ p - 1)) / 2 ^ p = hi) by (apply div_low; auto; lia).
    assert (D2 : (hi' * 2 ^ p + (2 ^ p - 1)) / 2 ^ p = hi') by (apply div_low; auto; lia).
    rewrite E1 in D1. assert (hi = hi') by congruence. subst hi'.
    destruct (leb_prefix_free t1 r1 t2 r2 x y Ht1 Ht2 E2) as (-> & -> & ->). auto.
Qed.
