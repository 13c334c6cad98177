(* The Huffman encoder writes the RFC bit string. *)
From Verif Require Import Base HuffTables HuffModel HuffSpec HuffCode.
From Coq Require Import ZifyBool ZifyNat ZifyN.
Open Scope N_scope.

(* The accumulator holds the pending bits [q] just below bit 40; older bits
   above it are never looked at again. *)
Definition EInv (bits bl : N) (q : list bool) : Prop :=
  (exists hi, bits = hi * 2 ^ 40 + val q * 2 ^ bl) /\ N.of_nat (length q) + bl = 40.

Lemma val_shift_lt q bl : N.of_nat (length q) + bl = 40 -> val q * 2 ^ bl < 2 ^ 40.
Proof.
  intros H. rewrite <- H, N.pow_add_r. apply N.mul_lt_mono_pos_r; [apply pow2_pos|apply val_lt].
Qed.

Lemma EInv_shift_mod bits bl q :
  EInv bits bl q -> (8 <= length q)%nat ->
  wrap 8 (N.shiftr bits 32) = val (firstn 8 q) /\
  EInv (N.shiftl bits 8 mod 2 ^ 64) (bl + 8) (skipn 8 q).
Proof.
  intros [[hi ->] Hl] Hq.
  set (q1 := firstn 8 q). set (q2 := skipn 8 q).
  assert (Hq1 : length q1 = 8%nat) by (unfold q1; rewrite firstn_length; lia).
  assert (Hq2 : (length q = 8 + length q2)%nat) by (unfold q2; rewrite skipn_length; lia).
  assert (Hv : val q = val q1 * 2 ^ N.of_nat (length q2) + val q2).
  { rewrite <- val_app. unfold q1, q2. now rewrite firstn_skipn. }
  pose proof (val_lt q1) as Hv1. rewrite Hq1 in Hv1.
  pose proof (val_lt q2) as Hv2.
  assert (Hbl : N.of_nat (length q2) + bl = 32) by lia.
  assert (Hdec : val q * 2 ^ bl = val q1 * 2 ^ 32 + val q2 * 2 ^ bl).
  { rewrite Hv, N.mul_add_distr_r, <- N.mul_assoc, <- N.pow_add_r, Hbl. reflexivity. }
  assert (Hlow : val q2 * 2 ^ bl < 2 ^ 32).
  { rewrite <- Hbl, N.pow_add_r. apply N.mul_lt_mono_pos_r; [apply pow2_pos|exact Hv2]. }
  rewrite Hdec.
  change (2 ^ N.of_nat 8) with 256 in Hv1.
  split.
  - unfold wrap. rewrite N.shiftr_div_pow2.
    replace (hi * 2 ^ 40 + (val q1 * 2 ^ 32 + val q2 * 2 ^ bl))
      with ((hi * 256 + val q1) * 2 ^ 32 + val q2 * 2 ^ bl).
    2: { change (2 ^ 40) with (256 * 2 ^ 32). ring. }
    rewrite N.div_add_l by discriminate.
    rewrite (N.div_small _ _ Hlow), N.add_0_r.
    change (2 ^ 8) with 256. rewrite N.add_comm, N.mod_add by discriminate.
    now apply N.mod_small.
  - split; [|lia].
    exists ((hi * 256 + val q1) mod 2 ^ 24).
    rewrite N.shiftl_mul_pow2.
    replace ((hi * 2 ^ 40 + (val q1 * 2 ^ 32 + val q2 * 2 ^ bl)) * 2 ^ 8)
      with (val q2 * 2 ^ (bl + 8) + 2 ^ 40 * (hi * 256 + val q1)).
    2: { rewrite (N.pow_add_r 2 bl 8). change (2 ^ 8) with 256.
         change (2 ^ 40) with (2 ^ 32 * 256). ring. }
    assert (Hlow' : val q2 * 2 ^ (bl + 8) < 2 ^ 40).
    { apply val_shift_lt. lia. }
    change (2 ^ 64) with (2 ^ 40 * 2 ^ 24).
    rewrite N.mod_mul_r by discriminate.
    rewrite (N.mul_comm (2 ^ 40) (hi * 256 + val q1)).
    rewrite N.mod_add by discriminate.
    rewrite (N.mod_small _ _ Hlow').
    rewrite N.div_add by discriminate.
    rewrite (N.div_small _ _ Hlow'). rewrite N.add_0_l. ring.
Qed.

Lemma encode_flush_ok m : forall fuel bits bl q dst,
  EInv bits bl q -> (length q < 8 + 8 * fuel)%nat ->
  exists out bits' bl' q',
    encode_flush m fuel bits bl dst = (dst ++ out, Ok (bits', bl')) /\
    bytes out /\ EInv bits' bl' q' /\ (length q' < 8)%nat /\
    q = bits_of_bytes out ++ q'.
Proof.
  induction fuel as [|fuel IH]; intros bits bl q dst HI Hf.
  - exists [], bits, bl, q. destruct HI as [HI Hl].
    assert (Hbl : (bl <=? 32) = false) by lia.
    cbn [encode_flush]. rewrite Hbl, app_nil_r.
    repeat split; auto; try lia. constructor.
  - cbn [encode_flush]. destruct (N.leb_spec bl 32) as [Hle|Hgt].
    + assert (Hq : (8 <= length q)%nat) by (destruct HI; lia).
      destruct (EInv_shift_mod _ _ _ HI Hq) as [Hbyte HI'].
      unfold u_shl at 1. change (8 <? 64) with true. cbv iota. cbn [bindd].
      rewrite u_add_ok by (change (2 ^ 8) with 256; lia). cbn [bindd].
      destruct (IH _ _ _ (dst ++ [wrap 8 (N.shiftr bits 32)]) HI') as
        (out & bits' & bl' & q' & He & Hb & HI2 & Hl2 & Hq2).
      { rewrite skipn_length. lia. }
      exists (wrap 8 (N.shiftr bits 32) :: out), bits', bl', q'.
      rewrite He, <- app_assoc. split; [reflexivity|].
      assert (Hlt : wrap 8 (N.shiftr bits 32) < 256).
      { unfold wrap. change (2 ^ 8) with 256. apply N.mod_lt. discriminate. }
      split; [apply bytes_cons; auto|].
      split; [auto|split; [auto|]].
      unfold bits_of_bytes. cbn [flat_map]. fold (bits_of_bytes out).
      rewrite <- app_assoc, <- Hq2, Hbyte.
      rewrite (bits_of_val_n 8); [now rewrite firstn_skipn|].
      rewrite firstn_length. lia.
    + exists [], bits, bl, q. rewrite app_nil_r.
      destruct HI as [HI Hl]. repeat split; auto; try lia. constructor.
Qed.

Lemma EInv_add bits bl q c :
  EInv bits bl q -> (length q < 8)%nat -> (length c <= 30)%nat ->
  EInv (N.lor bits (val c * 2 ^ (bl - N.of_nat (length c))))
       (bl - N.of_nat (length c)) (q ++ c).
Proof.
  intros [[hi ->] Hl] Hq Hc. pose proof (val_lt c) as Hv.
  set (n := N.of_nat (length c)) in *.
  assert (Hbl : bl = n + (bl - n)) by lia.
  set (b' := bl - n) in *.
  assert (Hlt : val c * 2 ^ b' < 2 ^ bl).
  { rewrite Hbl, N.pow_add_r. apply N.mul_lt_mono_pos_r; [apply pow2_pos|exact Hv]. }
  split; [|rewrite app_length; lia].
  exists hi. rewrite val_app. fold n.
  assert (E1 : hi * 2 ^ 40 + val q * 2 ^ bl = (hi * 2 ^ (N.of_nat (length q)) + val q) * 2 ^ bl).
  { rewrite <- Hl, N.pow_add_r. ring. }
  rewrite E1, lor_add_low by exact Hlt. rewrite <- E1.
  rewrite Hbl at 1. rewrite (N.pow_add_r 2 n b'). ring.
Qed.

Lemma encode_bytes_ok m : forall src bits bl q dst,
  bytes src -> EInv bits bl q -> (length q < 8)%nat ->
  exists out bits' bl' q',
    encode_bytes m src bits bl dst = (dst ++ out, Ok (bits', bl')) /\
    bytes out /\ EInv bits' bl' q' /\ (length q' < 8)%nat /\
    q ++ codes src = bits_of_bytes out ++ q'.
Proof.
  induction src as [|a src IH]; intros bits bl q dst Hb HI Hq.
  - exists [], bits, bl, q. cbn [encode_bytes codes flat_map]. rewrite !app_nil_r.
    repeat split; auto; try apply HI.
  - apply bytes_cons in Hb. destruct Hb as [Ha Hb].
    cbn [encode_bytes]. rewrite (table_is_rfc a) by lia.
    pose proof (code_length a ltac:(lia)) as Hlen.
    assert (Hbl : N.of_nat (length q) + bl = 40) by apply HI.
    rewrite u_sub_ok by lia. cbn [bindd].
    rewrite u_shl_ok.
    2: lia.
    2: { pose proof (val_lt (code a)) as Hv.
         eapply N.lt_le_trans.
         - apply N.mul_lt_mono_pos_r; [apply pow2_pos|exact Hv].
         - rewrite <- N.pow_add_r. apply N.pow_le_mono_r; lia. }
    cbn [bindd].
    pose proof (EInv_add bits bl q (code a) HI Hq ltac:(lia)) as HI1.
    destruct (encode_flush_ok m 5 _ _ _ dst HI1) as
      (out1 & bits1 & bl1 & q1 & He1 & Hb1 & HI2 & Hq1 & Hs1).
    { rewrite app_length. lia. }
    rewrite He1. cbn [binds fst snd].
    destruct (IH bits1 bl1 q1 (dst ++ out1) Hb HI2 Hq1) as
      (out2 & bits2 & bl2 & q2 & He2 & Hb2 & HI3 & Hq2 & Hs2).
    exists (out1 ++ out2), bits2, bl2, q2.
    rewrite He2, app_assoc. split; [reflexivity|].
    split; [apply bytes_app; auto|]. split; [auto|]. split; [auto|].
    rewrite bits_of_bytes_app, <- app_assoc, <- Hs2, codes_cons, !app_assoc.
    now rewrite Hs1.
Qed.

Lemma val_ones k : val (repeat true k) = 2 ^ N.of_nat k - 1.
Proof.
  induction k as [|k IH]; [reflexivity|].
  cbn [repeat]. rewrite val_cons, IH, repeat_length, pow2_S. simpl N.b2n.
  pose proof (pow2_pos (N.of_nat k)). lia.
Qed.

Lemma encode_ok m src dst : bytes src ->
  exists out k,
    encode m src dst = (dst ++ out, Ok tt) /\ bytes out /\ (k < 8)%nat /\
    bits_of_bytes out = codes src ++ repeat true k.
Proof.
  intros Hs. unfold encode.
  destruct (encode_bytes_ok m src 0 40 [] dst Hs) as
    (out & bits & bl & q & He & Hb & HI & Hq & Hbits).
  { split; [|reflexivity]. exists 0. reflexivity. }
  { simpl. lia. }
  rewrite He. cbn [binds]. simpl in Hbits.
  destruct (N.eqb_spec bl 40) as [->|Hne].
  - exists out, 0%nat. destruct HI as [_ HI].
    destruct q as [|? q]; [|simpl in HI; lia].
    rewrite app_nil_r in Hbits. cbn [repeat]. rewrite app_nil_r. repeat split; auto with arith; lia.
  - assert (Hl : N.of_nat (length q) + bl = 40) by apply HI.
    rewrite u_shl_ok; [|lia|].
    2: { rewrite N.mul_1_l. apply N.pow_lt_mono_r; lia. }
    cbn [bindd]. rewrite N.mul_1_l. pose proof (pow2_pos bl) as Hp.
    rewrite u_sub_ok by lia. cbn [bindd].
    (* the ones are a code of bl bits: reuse EInv_add's arithmetic *)
    set (k := (8 - length q)%nat).
    set (ones := repeat true (N.to_nat bl)).
    assert (Hones : 2 ^ bl - 1 = val ones).
    { unfold ones. rewrite val_ones. now rewrite N2Nat.id. }
    assert (HI1 : EInv (N.lor bits (2 ^ bl - 1)) 0 (q ++ ones)).
    { destruct HI as [[hi ->] _]. split.
      - exists hi. rewrite Hones, val_app. unfold ones at 2. rewrite repeat_length, N2Nat.id.
        assert (E1 : hi * 2 ^ 40 + val q * 2 ^ bl = (hi * 2 ^ (N.of_nat (length q)) + val q) * 2 ^ bl).
        { rewrite <- Hl, N.pow_add_r. ring. }
        rewrite E1, lor_add_low by (rewrite <- Hones; lia).
        rewrite <- E1, N.pow_0_r. ring.
      - rewrite app_length. unfold ones. rewrite repeat_length. lia. }
    destruct (EInv_shift_mod _ _ _ HI1) as [Hbyte _].
    { rewrite app_length. unfold ones. rewrite repeat_length. lia. }
    rewrite Hbyte.
    exists (out ++ [val (firstn 8 (q ++ ones))]), k.
    rewrite app_assoc. split; [reflexivity|].
    assert (Hf8 : firstn 8 (q ++ ones) = q ++ repeat true k).
    { rewrite firstn_app, firstn_all2 by lia. f_equal. unfold ones, k.
      replace (N.to_nat bl) with ((8 - length q) + (N.to_nat bl - (8 - length q)))%nat by lia.
      rewrite repeat_app, firstn_app, firstn_all2 by (rewrite repeat_length; lia).
      rewrite repeat_length, Nat.sub_diag, firstn_O, app_nil_r. reflexivity. }
    assert (Hlen8 : length (q ++ repeat true k) = 8%nat).
    { rewrite app_length, repeat_length. unfold k. lia. }
    rewrite Hf8. split.
    { apply bytes_app. split; auto. apply bytes_cons. split; [|constructor].
      pose proof (val_lt (q ++ repeat true k)) as Hv. rewrite Hlen8 in Hv. exact Hv. }
    split; [unfold k; lia|].
    rewrite bits_of_bytes_app. cbn [bits_of_bytes flat_map]. rewrite app_nil_r.
    rewrite (bits_of_val_n 8) by exact Hlen8.
    rewrite Hbits, <- app_assoc. reflexivity.
Qed.
