(* Consequences of encode_ok and decode_ok. *)
From Verif Require Import Base HuffTables HuffModel HuffSpec HuffCode HuffEncProofs HuffDecProofs.
From Coq Require Import ZifyBool ZifyNat ZifyN.
Open Scope N_scope.

Lemma prefix_repeat {A} (x : A) k n : (k <= n)%nat -> prefix (repeat x k) (repeat x n).
Proof.
  intros H. exists (repeat x (n - k)). rewrite repeat_app_comm. f_equal. lia.
Qed.

Lemma ones_no_code k a : (k <= 30)%nat -> a < 256 -> ~ prefix (code a) (repeat true k).
Proof.
  intros Hk Ha [t Ht].
  assert (a = EOS).
  { apply prefix_free; [lia|apply EOS_le|]. rewrite code_eos.
    destruct (prefix_repeat true k 30 Hk) as [u Hu]. rewrite Hu, Ht, <- app_assoc.
    now exists (t ++ u). }
  subst a. discriminate Ha.
Qed.

Lemma ones_accepted k : (k <= 7)%nat -> tail_accepted (repeat true k) = true.
Proof. intros H. do 8 (destruct k as [|k]; [reflexivity|]). lia. Qed.

Lemma splits_encoded src k : bytes src -> (k < 8)%nat ->
  splits (codes src ++ repeat true k) src (repeat true k).
Proof.
  intros Hb Hk. split; [reflexivity|split; [exact Hb|]].
  intros a Ha. apply ones_no_code; [lia|exact Ha].
Qed.

Lemma huff_round_trip m m' sp src dst dst2 : bytes src ->
  exists out, encode m src dst = (dst ++ out, Ok tt) /\ bytes out /\
              decode m' sp out dst2 = (dst2 ++ src, Ok tt).
Proof.
  intros Hb. destruct (encode_ok m src dst Hb) as (out & k & He & Ho & Hk & Hbits).
  exists out. split; [exact He|split; [exact Ho|]].
  rewrite (decode_ok m' sp out dst2 src (repeat true k)); auto.
  - unfold verdict. rewrite ones_accepted by lia. reflexivity.
  - rewrite Hbits. now apply splits_encoded.
Qed.

(* The output does not depend on the destination or the build mode. *)
Lemma bits_pad_unique (x : list bool) j k :
  (length (x ++ repeat true j) mod 8 = 0)%nat -> (length (x ++ repeat true k) mod 8 = 0)%nat ->
  (j < 8)%nat -> (k < 8)%nat -> j = k.
Proof.
  rewrite !app_length, !repeat_length. intros H1 H2 Hj Hk.
  apply Nat.mod_divides in H1; [|lia]. apply Nat.mod_divides in H2; [|lia].
  destruct H1 as [c H1], H2 as [d H2]. lia.
Qed.

Lemma encode_indep m m' src dst dst' : bytes src ->
  exists out, encode m src dst = (dst ++ out, Ok tt) /\ encode m' src dst' = (dst' ++ out, Ok tt).
Proof.
  intros Hb. destruct (encode_ok m src dst Hb) as (out & k & He & Ho & Hk & Hbits).
  destruct (encode_ok m' src dst' Hb) as (out' & k' & He' & Ho' & Hk' & Hbits').
  assert (k = k').
  { apply (bits_pad_unique (codes src) k k'); auto.
    - rewrite <- Hbits, bits_of_bytes_length. rewrite Nat.mul_comm. apply Nat.mod_mul. lia.
    - rewrite <- Hbits', bits_of_bytes_length. rewrite Nat.mul_comm. apply Nat.mod_mul. lia. }
  subst k'. exists out. split; [exact He|].
  assert (out = out') by (apply bits_of_bytes_inj; auto; congruence). subst out'. exact He'.
Qed.

Lemma encode_empty m dst : encode m [] dst = (dst, Ok tt).
Proof. reflexivity. Qed.

Lemma decode_speed_mode m m' s s' src dst : bytes src ->
  decode m s src dst = decode m' s' src dst.
Proof.
  intros Hb. destruct (splits_total (bits_of_bytes src)) as (syms & rest & Hs).
  now rewrite !(decode_ok _ _ src dst syms rest).
Qed.

Lemma decode_accepts_iff m sp src dst dst' : bytes src ->
  (decode m sp src dst = (dst', Ok tt) <->
   exists syms rest, splits (bits_of_bytes src) syms rest /\
                     tail_accepted rest = true /\ dst' = dst ++ syms).
Proof.
  intros Hb. split.
  - intros H. destruct (splits_total (bits_of_bytes src)) as (syms & rest & Hs).
    rewrite (decode_ok _ _ src dst syms rest Hb Hs) in H. unfold verdict in H.
    destruct (tail_accepted rest) eqn:Ht; [|discriminate].
    exists syms, rest. split; [exact Hs|]. split; [exact Ht|]. congruence.
  - intros (syms & rest & Hs & Ht & ->). rewrite (decode_ok _ _ src dst syms rest Hb Hs).
    unfold verdict. now rewrite Ht.
Qed.

(* The accepted tails, bit for bit. *)
Lemma val_zeros k : val (repeat false k) = 0.
Proof.
  induction k as [|k IH]; [reflexivity|]. cbn [repeat]. rewrite val_cons, IH. reflexivity.
Qed.

Lemma tail_accepted_shape l :
  tail_accepted l = true <->
  exists j k, l = repeat false j ++ repeat true k /\ (k <= 7)%nat.
Proof.
  split.
  - intros H.
    assert (Hk : exists k, (k <= 7)%nat /\ val l = 2 ^ N.of_nat k - 1).
    { unfold tail_accepted in H. apply existsb_exists in H. destruct H as (v & Hin & Hv).
      apply N.eqb_eq in Hv. rewrite Hv. cbn [In] in Hin.
      destruct Hin as [<-|[<-|[<-|[<-|[<-|[<-|[<-|[<-|[]]]]]]]]];
        [exists 0%nat|exists 1%nat|exists 2%nat|exists 3%nat|exists 4%nat|exists 5%nat|exists 6%nat|exists 7%nat];
        split; try lia; reflexivity. }
    destruct Hk as (k & Hk & Hv).
    assert (Hlen : (k <= length l)%nat).
    { destruct (Nat.le_gt_cases k (length l)) as [Hc|Hc]; [exact Hc|exfalso].
      pose proof (val_lt l) as Hlt. rewrite Hv in Hlt.
      assert (Hm : 2 * 2 ^ N.of_nat (length l) <= 2 ^ N.of_nat k).
      { rewrite <- pow2_S. apply N.pow_le_mono_r; lia. }
      pose proof (pow2_pos (N.of_nat (length l))). lia. }
    exists (length l - k)%nat, k. split; [|exact Hk].
    apply val_inj.
    + rewrite app_length, !repeat_length. lia.
    + rewrite val_app, val_zeros, val_ones, Hv. lia.
  - intros (j & k & -> & Hk). unfold tail_accepted.
    rewrite val_app, val_zeros, N.mul_0_l, N.add_0_l.
    exact (ones_accepted k Hk).
Qed.

Lemma code_zero_short_b :
  forallb (fun a => match code a with false :: c => (length c <=? 5)%nat | _ => true end) symbols = true.
Proof. vm_compute. reflexivity. Qed.

(* A tail that starts with 0 and contains no code has at most five bits. *)
Lemma zero_tail_short l :
  (forall a, a < 256 -> ~ prefix (code a) (false :: l)) -> (length l <= 4)%nat.
Proof.
  intros Hno. destruct (Nat.le_gt_cases (length l) 4) as [H|H]; [exact H|exfalso].
  destruct (complete ((false :: l) ++ repeat true 30)) as (a & Ha & Hp).
  { rewrite app_length, repeat_length. lia. }
  assert (Hshort : (length (code a) <= 6)%nat).
  { pose proof (forall_symbols _ code_zero_short_b a Ha) as Hs. cbv beta in Hs.
    pose proof (code_length a Ha) as Hl.
    destruct Hp as [t Ht]. destruct (code a) as [|b c]; [simpl in Hl; lia|].
    injection Ht as <- _. apply Nat.leb_le in Hs. simpl. lia. }
  assert (Hpre : prefix (code a) (false :: l)).
  { apply (prefix_total _ _ ((false :: l) ++ repeat true 30)); auto.
    - now exists (repeat true 30).
    - simpl. lia. }
  assert (Ha' : a < 256).
  { destruct (N.eq_dec a 256) as [->|]; [|lia]. destruct Hpre as [t Ht]. discriminate Ht. }
  exact (Hno a Ha' Hpre).
Qed.

Lemma accepted_tail_short bits syms rest :
  splits bits syms rest -> tail_accepted rest = true -> (length rest < 8)%nat.
Proof.
  intros (_ & _ & Hno) Ht. apply tail_accepted_shape in Ht.
  destruct Ht as (j & k & -> & Hk). destruct j as [|j].
  - simpl. rewrite repeat_length. lia.
  - cbn [repeat app] in Hno. apply zero_tail_short in Hno. simpl. lia.
Qed.

Lemma decode_padding_short m sp src dst dst' syms rest : bytes src ->
  decode m sp src dst = (dst', Ok tt) -> splits (bits_of_bytes src) syms rest ->
  (length rest < 8)%nat.
Proof.
  intros Hb H Hs. rewrite (decode_ok _ _ src dst syms rest Hb Hs) in H.
  unfold verdict in H. destruct (tail_accepted rest) eqn:Ht; [|discriminate].
  eapply accepted_tail_short; eauto.
Qed.

Lemma ones_of_prefix_eos rest : prefix rest (code EOS) -> rest = repeat true (length rest).
Proof.
  rewrite code_eos. intros [t Ht].
  assert (Hin : Forall (eq true) (rest ++ t)).
  { rewrite <- Ht. apply Forall_forall. intros x Hx. apply repeat_spec in Hx. auto. }
  apply Forall_app in Hin. destruct Hin as [H _].
  clear Ht. induction H as [|x l Hx H IH]; [reflexivity|]. cbn [length repeat]. congruence.
Qed.

(* Exactly which accepted strings violate RFC 7541 section 5.2. *)
Lemma decode_padding_exact m sp src dst dst' syms rest : bytes src ->
  decode m sp src dst = (dst', Ok tt) -> splits (bits_of_bytes src) syms rest ->
  (rfc_padding rest \/
   exists j k, (1 <= j)%nat /\ (j + k <= 5)%nat /\ rest = repeat false j ++ repeat true k).
Proof.
  intros Hb H Hs. rewrite (decode_ok _ _ src dst syms rest Hb Hs) in H.
  unfold verdict in H. destruct (tail_accepted rest) eqn:Ht; [|discriminate].
  pose proof (accepted_tail_short _ _ _ Hs Ht) as Hlen.
  apply tail_accepted_shape in Ht. destruct Ht as (j & k & -> & Hk).
  destruct j as [|j].
  - left. split; [|exact Hlen]. cbn [repeat app]. rewrite code_eos. apply prefix_repeat. lia.
  - right. exists (S j), k. split; [lia|]. split; [|reflexivity].
    destruct Hs as (_ & _ & Hno). cbn [repeat app] in Hno. apply zero_tail_short in Hno.
    rewrite app_length, !repeat_length in Hno. lia.
Qed.

(* Every RFC-conformant string is accepted. *)
Lemma rfc_padding_accepted rest : rfc_padding rest -> tail_accepted rest = true.
Proof.
  intros [Hp Hl]. rewrite (ones_of_prefix_eos rest Hp). apply ones_accepted. lia.
Qed.

Lemma decode_eos m sp src dst syms t : bytes src -> bytes syms ->
  bits_of_bytes src = codes syms ++ code EOS ++ t ->
  decode m sp src dst = (dst ++ syms, Err InvalidInput).
Proof.
  intros Hb Hs He. rewrite (decode_ok m sp src dst syms (code EOS ++ t) Hb).
  - unfold verdict. assert (Hbig : tail_accepted (code EOS ++ t) = false).
    { unfold tail_accepted. rewrite val_app, code_eos.
      assert (Hv : 1073741823 <= val (repeat true 30) * 2 ^ N.of_nat (length t)).
      { change (val (repeat true 30)) with 1073741823.
        pose proof (pow2_pos (N.of_nat (length t))). nia. }
      cbn [existsb]. lia. }
    now rewrite Hbig.
  - split; [exact He|split; [exact Hs|]]. intros a Ha Hp.
    assert (a = EOS).
    { apply (prefix_of_same a EOS (code EOS ++ t) ltac:(lia) EOS_le Hp). now exists t. }
    subst a. discriminate Ha.
Qed.

Lemma decode_total m sp src dst : bytes src ->
  exists syms, decode m sp src dst = (dst ++ syms, Ok tt)
            \/ decode m sp src dst = (dst ++ syms, Err InvalidInput).
Proof.
  intros Hb. destruct (splits_total (bits_of_bytes src)) as (syms & rest & Hs).
  exists syms. rewrite (decode_ok m sp src dst syms rest Hb Hs).
  unfold verdict. destruct (tail_accepted rest); auto.
Qed.

(* Sizes. *)
Lemma encode_size m src dst out : bytes src -> encode m src dst = (dst ++ out, Ok tt) ->
  length out = ((length (codes src) + 7) / 8)%nat.
Proof.
  intros Hb H. destruct (encode_ok m src dst Hb) as (out' & k & He & Ho & Hk & Hbits).
  rewrite He in H. injection H as H. apply app_inv_head in H. subst out'.
  assert (Hl : (8 * length out = length (codes src) + k)%nat).
  { rewrite <- bits_of_bytes_length, Hbits, app_length, repeat_length. reflexivity. }
  apply (Nat.div_unique _ 8 _ (7 - k)); lia.
Qed.

Lemma codes_length_bound src : bytes src -> (5 * length src <= length (codes src) <= 30 * length src)%nat.
Proof.
  induction 1 as [|a src Ha Hb IH]; [simpl; lia|].
  rewrite codes_cons, app_length. cbn [length].
  assert (a <= 256) by (unfold is_byte in Ha; lia).
  pose proof (code_length a H). lia.
Qed.

Lemma encode_size_bound m src dst out : bytes src -> encode m src dst = (dst ++ out, Ok tt) ->
  (length out <= 4 * length src)%nat.
Proof.
  intros Hb H. rewrite (encode_size m src dst out Hb H).
  pose proof (codes_length_bound src Hb).
  assert (((length (codes src) + 7) / 8 < 4 * length src + 1)%nat).
  { apply Nat.div_lt_upper_bound; lia. }
  lia.
Qed.

Lemma encode_inj m m' s1 s2 d1 d2 out : bytes s1 -> bytes s2 ->
  encode m s1 d1 = (d1 ++ out, Ok tt) -> encode m' s2 d2 = (d2 ++ out, Ok tt) -> s1 = s2.
Proof.
  intros H1 H2 E1 E2.
  destruct (huff_round_trip m Debug OneBit s1 d1 [] H1) as (o1 & F1 & _ & G1).
  destruct (huff_round_trip m' Debug OneBit s2 d2 [] H2) as (o2 & F2 & _ & G2).
  rewrite E1 in F1. rewrite E2 in F2.
  injection F1 as F1. injection F2 as F2. apply app_inv_head in F1, F2. subst o1 o2.
  rewrite G1 in G2. injection G2 as G2. exact G2.
Qed.

(* Completeness with uniqueness. *)
Lemma code_complete l : (30 <= length l)%nat ->
  exists a, (a <= 256 /\ prefix (code a) l) /\
            forall b, b <= 256 -> prefix (code b) l -> b = a.
Proof.
  intros H. destruct (complete l H) as (a & Ha & Hp). exists a. split; [auto|].
  intros b Hb Hpb. eapply prefix_of_same; eauto.
Qed.

(* C09 *)
Lemma flatten_shipped m s : flatten m ENCODE_TABLE s = Ok (table_of_speed (speed_bits s)).
Proof. destruct m, s; vm_compute; reflexivity. Qed.
