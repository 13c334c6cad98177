(* C110: whether waiting for the rest of a protobuf field can help. *)
From Verif Require Import Base Leb ProtosModel ProtosSpec ProtosApi ProtosNum ProtosEnc ProtosConv ProtosDec ProtosDerived ProtosMore PropsProtos12.
Open Scope N_scope.

(* ------------------------------------------------------------------ *)
(* Specification vocabulary. *)

(* Some octets, sent next, make the call deliver a field. *)
Definition deliverable (m : mode) (d : pdecoder) (buf : list N) : Prop :=
  exists more d' rest fs n, bytes more /\ fs <> [] /\ pdecode m d (buf ++ more) [] = ((d', rest, fs), Ok n).

(* An unfinished key, of groups that make [folded 0 buf] so far.  In a debug build it has at
   most nine octets (an eleventh would panic, and the tenth must be the last), no bit above
   the 32nd, a wire type in use, and room for a field number or one already.  In a release
   build later groups are folded onto earlier ones (C36), so only what cannot be mended
   counts: a bit above the 32nd, or the wire types 3, 6 and 7. *)
Definition key_hope (m : mode) (buf : list N) : Prop :=
  let k := folded 0 buf in
  k < 2 ^ 32 /\
  match m with
  | Debug => (List.length buf <= 9)%nat /\ (k mod 8 = 0 \/ k mod 8 = 1 \/ k mod 8 = 2 \/ k mod 8 = 5) /\
             ((List.length buf <= 4)%nat \/ 8 <= k)
  | Release => k mod 8 <> 3 /\ k mod 8 <> 6 /\ k mod 8 <> 7
  end.

(* ------------------------------------------------------------------ *)
(* Folding. *)
Lemma folded_app a : forall i b, folded i (a ++ b) = N.lor (folded i a) (folded (i + N.of_nat (List.length a)) b).
Proof.
  induction a as [|x a IH]; intros i b.
  - cbn [app folded List.length]. rewrite N.lor_0_l. f_equal. lia.
  - cbn [app folded List.length]. rewrite IH, N.lor_assoc. do 2 f_equal. lia.
Qed.

Lemma folded_zeros n : forall i, folded i (repeat 128 n) = 0.
Proof.
  induction n as [|n IH]; intros i; [reflexivity|]. cbn [repeat folded]. rewrite IH.
  change (128 mod 128) with 0. rewrite N.mul_0_l. reflexivity.
Qed.

Lemma lor_small a b n : N.lor a b < 2 ^ n -> a < 2 ^ n /\ b < 2 ^ n.
Proof.
  intros H. assert (E : N.shiftr (N.lor a b) n = 0) by (rewrite N.shiftr_div_pow2; apply N.div_small; exact H).
  rewrite N.shiftr_lor in E. apply N.lor_eq_0_iff in E as [E1 E2]. rewrite N.shiftr_div_pow2 in E1, E2.
  split; [apply N.div_small_iff in E1|apply N.div_small_iff in E2]; auto; apply N.pow_nonzero; lia.
Qed.

Lemma lor_lt a b n : a < 2 ^ n -> b < 2 ^ n -> N.lor a b < 2 ^ n.
Proof.
  intros Ha Hb. rewrite <- (N.mod_small a (2 ^ n)), <- (N.mod_small b (2 ^ n)), lor_mod by assumption.
  apply N.mod_lt. apply N.pow_nonzero. lia.
Qed.

Lemma lor_mod8 a b : N.lor a b mod 8 = N.lor (a mod 8) (b mod 8).
Proof. symmetry. exact (lor_mod a b 3). Qed.

(* A group added later touches no bit below its place, within ten octets. *)
Lemma folded_high u : forall i s, 7 * i + 7 * N.of_nat (List.length u) <= 70 -> s <= 7 * i -> s <= 63 ->
  exists q, folded i u = q * 2 ^ s.
Proof.
  induction u as [|b u IH]; intros i s Hi Hs H63; [exists 0; reflexivity|]. cbn [folded List.length] in *.
  destruct (IH (i + 1) s) as (q & ->); [lia|lia|lia|].
  rewrite (N.mod_small (7 * i) 64) by lia.
  assert (exists q', (b mod 128 * 2 ^ (7 * i)) mod 2 ^ 64 = q' * 2 ^ s) as (q' & ->).
  { exists ((b mod 128 * 2 ^ (7 * i - s)) mod 2 ^ (64 - s)).
    replace (2 ^ (7 * i)) with (2 ^ (7 * i - s) * 2 ^ s) by (rewrite <- N.pow_add_r; f_equal; lia).
    replace (2 ^ 64) with (2 ^ (64 - s) * 2 ^ s) by (rewrite <- N.pow_add_r; f_equal; lia).
    rewrite N.mul_assoc, N.mul_mod_distr_r; [reflexivity| |]; apply N.pow_nonzero; lia. }
  exists (N.lor q' q). rewrite <- !N.shiftl_mul_pow2, N.shiftl_lor. reflexivity.
Qed.

(* A single bit can be set by octets to come, far enough away. *)
Lemma far_bit buf j : continued buf -> j < 64 ->
  exists more, continued more /\ folded 0 (buf ++ more) = N.lor (folded 0 buf) (2 ^ j).
Proof.
  intros Hc Hj. set (len := N.of_nat (List.length buf)).
  set (k := (55 * j) mod 64 + 64 * len - len).
  exists (repeat 128 (N.to_nat k) ++ [129]). split.
  - apply Forall_app. split; [apply Forall_forall; intros x Hx; apply repeat_spec in Hx; subst x; lia|].
    constructor; [lia|constructor].
  - rewrite folded_app, folded_app, folded_zeros, N.lor_0_l, repeat_length, N2Nat.id. fold len. f_equal.
    cbn [folded]. rewrite N.lor_0_r. change (129 mod 128) with 1. rewrite N.mul_1_l.
    replace ((7 * (0 + len + k)) mod 64) with j.
    + apply N.mod_small. apply N.pow_lt_mono_r; lia.
    + subst k. pose proof (N.div_mod (55 * j) 64 ltac:(lia)) as D. set (q := 55 * j / 64) in *. set (r := (55 * j) mod 64) in *.
      replace (7 * (0 + len + (r + 64 * len - len))) with (7 * r + (7 * len) * 64) by lia.
      rewrite N.mod_add by lia. assert (Er : 7 * r + (7 * q) * 64 = j + (6 * j) * 64) by lia.
      rewrite <- (N.mod_add (7 * r) (7 * q)) by lia. rewrite Er, N.mod_add by lia. symmetry. apply N.mod_small. exact Hj.
Qed.

(* ------------------------------------------------------------------ *)
(* Delivering. *)
Definition delivers (m : mode) (p : pending) (b : list N) : Prop :=
  exists a p1 hs rest p2 hs2, b = a ++ rest /\ items m true p a p1 hs /\ call_ends m p1 rest p2 hs2 (Ok tt) /\ hs ++ hs2 <> [].

Lemma delivers_call m p buf more : bytes more -> delivers m p (buf ++ more) -> deliverable m (decoder_of p) buf.
Proof.
  intros Bm (a & p1 & hs & rest & p2 & hs2 & E & Hi & Hc & Hne).
  exists more. do 4 eexists. split; [exact Bm|]. rewrite E, (pdecode_run m p a p1 hs rest p2 hs2 (Ok tt) [] Hi Hc).
  split; [|reflexivity]. exact Hne.
Qed.

Lemma delivers_after m p bs p1 h b : item m p bs p1 h -> bs <> [] -> delivers m p1 b -> delivers m p (bs ++ b).
Proof.
  intros Hi Hb (a & q & hs & rest & q2 & hs2 & -> & Hs & Hc & Hne).
  exists (bs ++ a), q, (h ++ hs), rest, q2, hs2. rewrite app_assoc.
  split; [reflexivity|]. split; [apply (items_cons m true p bs p1 h a q hs Hi (fun _ => Hb) Hs)|]. split; [exact Hc|].
  intros X. apply Hne. apply app_eq_nil in X as [X ->]. apply app_eq_nil in X as [_ ->]. reflexivity.
Qed.

Lemma delivers_item m p bs f : item m p bs Start [f] -> bs <> [] -> delivers m p bs.
Proof.
  intros Hi Hb. exists bs, Start, [f], [], Start, [].
  split; [now rewrite app_nil_r|]. split.
  - rewrite <- (app_nil_r bs) at 1. change [f] with ([f] ++ []). apply (items_cons m true p bs Start [f] [] Start [] Hi (fun _ => Hb)).
    constructor.
  - split; [|discriminate]. constructor. constructor. cbn. split; [constructor|lia].
Qed.

Lemma done_shape buf : continued buf -> varint_shape (buf ++ [0]).
Proof.
  intros H. induction H as [|c t Hc Ht (v & Hv)]; [exists 0; constructor; lia|].
  exists (c - 128 + 128 * v). replace ((c :: t) ++ [0]) with ((128 + (c - 128)) :: t ++ [0]) by (cbn; f_equal; lia).
  apply leb_more; [lia|exact Hv].
Qed.

Lemma end_shape buf b : continued buf -> b < 128 -> varint_shape (buf ++ [b]).
Proof.
  intros H Hb. induction H as [|c t Hc Ht (v & Hv)]; [exists b; constructor; lia|].
  exists (c - 128 + 128 * v). replace ((c :: t) ++ [b]) with ((128 + (c - 128)) :: t ++ [b]) by (cbn; f_equal; lia).
  apply leb_more; [lia|exact Hv].
Qed.

Lemma zeros_bytes n : bytes (repeat 0 n).
Proof. apply Forall_forall. intros x Hx. apply repeat_spec in Hx. subst x. unfold is_byte. lia. Qed.

(* After the key every wait can end well. *)
Lemma finish m p buf : idle p -> p <> Start -> waiting m p buf ->
  (forall tag, p = GotKey tag LengthDelimited -> m = Debug -> (List.length buf <= 9)%nat) ->
  exists more, bytes more /\ delivers m p (buf ++ more).
Proof.
  intros Hp Hs Hw Hl. destruct p as [|tag t|tag n]; [congruence| |].
  - destruct t; cbn [waiting] in Hw.
    + exists [0]. split; [repeat constructor|]. eapply delivers_item; [apply item_varint; apply done_shape; exact Hw|].
      destruct buf; discriminate.
    + exists (repeat 0 (8 - List.length buf)). split; [apply zeros_bytes|].
      eapply delivers_item; [apply item_bit64; rewrite app_length, repeat_length; lia|].
      intros X. apply (f_equal (@List.length N)) in X. rewrite app_length, repeat_length in X. cbn [List.length] in X. lia.
    + destruct Hw as [Hc _].
      assert (R : reads m (buf ++ [0]) (folded 0 (buf ++ [0]))).
      { split; [apply done_shape; exact Hc|]. split; [reflexivity|]. intros E. specialize (Hl tag eq_refl E). rewrite app_length. cbn. lia. }
      pose proof (folded_bound (buf ++ [0]) 0) as Fb. set (n := folded 0 (buf ++ [0])) in *.
      destruct (N.eq_dec n 0) as [E0|E0].
      * exists [0]. split; [repeat constructor|]. rewrite <- (app_nil_r (buf ++ [0])).
        apply (delivers_after m _ (buf ++ [0]) (GotLen tag n) []); [apply item_len; exact R|destruct buf; discriminate|].
        rewrite E0. exists [], (GotLen tag 0), [], [], Start, [(tag, LengthDelimited, [])].
        split; [reflexivity|]. split; [constructor|]. split; [constructor|discriminate].
      * exists ([0] ++ repeat 0 (N.to_nat n)). split; [apply bytes_app; split; [repeat constructor|apply zeros_bytes]|].
        rewrite app_assoc. apply (delivers_after m _ (buf ++ [0]) (GotLen tag n) []); [apply item_len; exact R|destruct buf; discriminate|].
        eapply delivers_item; [apply item_data; rewrite repeat_length; apply N2Nat.id|].
        intros X. apply (f_equal (@List.length N)) in X. rewrite repeat_length in X. cbn [List.length] in X. lia.
    + exists (repeat 0 (4 - List.length buf)). split; [apply zeros_bytes|].
      eapply delivers_item; [apply item_bit32; rewrite app_length, repeat_length; lia|].
      intros X. apply (f_equal (@List.length N)) in X. rewrite app_length, repeat_length in X. cbn [List.length] in X. lia.
    + contradiction.
  - cbn [waiting] in Hw. exists (repeat 0 (N.to_nat n - List.length buf)). split; [apply zeros_bytes|].
    eapply delivers_item; [apply item_data; rewrite app_length, repeat_length; lia|].
    intros X. apply (f_equal (@List.length N)) in X. rewrite app_length, repeat_length in X. cbn [List.length] in X. lia.
Qed.

Lemma waiting_nil m p : idle p -> waiting m p [].
Proof. destruct p as [|tag []|tag n]; cbn; intros H; try (split; [constructor|lia]); try constructor; try lia. destruct H as [_ H]. congruence. Qed.

(* A key is enough. *)
Lemma key_delivers m bs k buf more : reads m bs k -> ~ bad_key k -> bs = buf ++ more -> bytes more -> deliverable m pdecoder_default buf.
Proof.
  intros Hr Hk -> Hm. destruct (key_cases m _ k Hr) as [(tag & t & n & -> & Hn & Ht)|]; [|contradiction].
  assert (Hi : idle (GotKey tag t)) by (split; [exact Ht|intros ->; exact Hn]).
  destruct (finish m (GotKey tag t) [] Hi ltac:(discriminate) (waiting_nil m _ Hi) ltac:(cbn; lia)) as (m2 & B2 & D).
  change pdecoder_default with (decoder_of Start). apply (delivers_call m Start buf (more ++ m2)); [apply bytes_app; auto|].
  rewrite app_assoc. apply (delivers_after m Start _ (GotKey tag t) []); [|destruct Hr as ((v & Hv) & _); exact (leb_nonempty _ _ Hv)|exact D].
  exact (item_key m _ tag t n Hr Hn Ht).
Qed.

(* And a key is needed. *)
Lemma delivered_key m buf : bytes buf -> continued buf -> deliverable m pdecoder_default buf ->
  exists u k, reads m (buf ++ u) k /\ ~ bad_key k.
Proof.
  intros Hb Hc (more & d' & rest0 & fs & n & Bm & Hne & E). change pdecoder_default with (decoder_of Start) in E.
  destruct (pdecode_total m Start (buf ++ more) [] (proj2 (Forall_app _ _ _) (conj Hb Bm)) Logic.I)
    as (a & p1 & hs & rest & p2 & hs2 & o & E1 & Hi & He & E2).
  rewrite E in E2. injection E2 as _ _ Ef _. cbn [app] in Ef. subst fs.
  inversion Hi as [|q bs q1 h bs' q2 hs' Hit _ _]; subst.
  - inversion He; subst. now elim Hne.
  - inversion Hit as [bs0 tag t n0 Hr Hn Ht| | | | |]; subst. pose proof Hr as ((v & Hv) & _).
    destruct (Nat.le_gt_cases (List.length bs) (List.length buf)) as [C|C].
    { exfalso. rewrite <- app_assoc in E1. exact (continued_not_leb _ _ _ _ _ Hc Hv C E1). }
    exists (skipn (List.length buf) bs), (8 * tag + n0).
    assert (buf ++ skipn (List.length buf) bs = bs) as ->.
    { rewrite <- (firstn_skipn (List.length buf) bs) at 2. f_equal.
      pose proof (f_equal (firstn (List.length buf)) E1) as F. rewrite <- app_assoc in F. rewrite !firstn_app in F.
      replace (List.length buf - List.length bs)%nat with O in F by lia.
      rewrite Nat.sub_diag, !firstn_O, !app_nil_r, firstn_all in F. exact F. }
    split; [exact Hr|]. pose proof (wire_number_num _ _ Hn) as [Q Q8]. change (2 ^ 29) with 536870912 in Ht.
    assert (D8 : (8 * tag + n0) / 8 = tag) by (rewrite N.mul_comm, N.div_add_l, N.div_small; lia).
    assert (M8 : (8 * tag + n0) mod 8 = n0) by (rewrite N.add_comm, N.mul_comm, N.mod_add, N.mod_small; lia).
    unfold bad_key. rewrite D8, M8. change (2 ^ 32) with 4294967296.
    destruct t; cbn in Hn; try contradiction; lia.
Qed.

Lemma good_parts k : ~ bad_key k <-> k < 2 ^ 32 /\ 8 <= k /\ (k mod 8 = 0 \/ k mod 8 = 1 \/ k mod 8 = 2 \/ k mod 8 = 5).
Proof.
  unfold bad_key. pose proof (N.mod_lt k 8 ltac:(lia)) as M. pose proof (N.div_mod k 8 ltac:(lia)) as D.
  change (2 ^ 32) with 4294967296. split; intros H.
  - destruct (N.lt_ge_cases k 4294967296); [|tauto]. split; [assumption|]. split; [destruct (N.eq_dec (k / 8) 0); [tauto|lia]|lia].
  - intros [C|[C|C]]; lia.
Qed.

Lemma below8 x : x < 8 -> x = 0 \/ x = 1 \/ x = 2 \/ x = 3 \/ x = 4 \/ x = 5 \/ x = 6 \/ x = 7.
Proof. lia. Qed.

Lemma key_needed m buf u k : continued buf -> reads m (buf ++ u) k -> ~ bad_key k -> key_hope m buf.
Proof.
  intros Hc (Hs & -> & Hd) Hk. apply good_parts in Hk as (H1 & H2 & H3). unfold key_hope.
  rewrite folded_app, N.add_0_l in H1, H2, H3. set (a := folded 0 buf) in *.
  pose proof (lor_small _ _ _ H1) as [A B]. split; [exact A|]. rewrite lor_mod8 in H3.
  assert (Hu : u <> []).
  { intros ->. destruct Hs as (v & Hv). rewrite app_nil_r in Hv.
    exact (continued_not_leb buf [] buf v [] Hc Hv (le_n _) eq_refl). }
  destruct m.
  - specialize (Hd eq_refl). rewrite app_length in Hd.
    assert (L : (1 <= List.length u)%nat) by (destruct u; [congruence|cbn; lia]).
    split; [lia|].
    destruct (Nat.eq_dec (List.length buf) 0) as [Z|Z].
    { assert (buf = []) as Zb by (destruct buf; [reflexivity|discriminate Z]). subst a. rewrite Zb. cbn. split; [left; reflexivity|left; lia]. }
    destruct (folded_high u (N.of_nat (List.length buf)) 3) as (q & Eq); [lia|lia|lia|].
    rewrite Eq in *. change (2 ^ 3) with 8 in *. rewrite N.mod_mul, N.lor_0_r in H3 by lia. split; [exact H3|].
    destruct (Nat.le_gt_cases (List.length buf) 4) as [C|C]; [left; exact C|right].
    destruct (folded_high u (N.of_nat (List.length buf)) 32) as (q2 & Eq2); [lia|lia|lia|].
    rewrite <- Eq, Eq2 in B, H2. assert (q2 = 0) as ->; [|rewrite N.mul_0_l, N.lor_0_r in H2; exact H2].
    destruct (N.eq_dec q2 0); [assumption|]. exfalso. change (2 ^ 32) with 4294967296 in B. lia.
  - pose proof (N.mod_lt a 8 ltac:(lia)) as Ma. pose proof (N.mod_lt (folded (N.of_nat (List.length buf)) u) 8 ltac:(lia)) as Mb.
    destruct (below8 _ Ma) as [E1|[E1|[E1|[E1|[E1|[E1|[E1|E1]]]]]]]; rewrite E1 in H3 |- *; repeat split; try discriminate; exfalso;
    destruct (below8 _ Mb) as [E|[E|[E|[E|[E|[E|[E|E]]]]]]]; rewrite E in H3; vm_compute in H3; intuition discriminate.
Qed.

Lemma key_enough m buf : bytes buf -> continued buf -> key_hope m buf -> deliverable m pdecoder_default buf.
Proof.
  intros Hb Hc [H1 H2]. destruct m.
  - destruct H2 as (L & T & V).
    destruct (Nat.le_gt_cases (List.length buf) 4) as [C|C].
    + destruct (Nat.eq_dec (List.length buf) 0) as [Z|Z].
      { assert (buf = []) as -> by (destruct buf; [reflexivity|discriminate Z]).
        apply (key_delivers Debug [8] 8 [] [8]); [|rewrite good_parts; refine (conj _ (conj _ _)); [reflexivity|lia|left; reflexivity]|reflexivity|repeat constructor].
        split; [exists 8; constructor; lia|]. split; [reflexivity|cbn; lia]. }
      apply (key_delivers Debug (buf ++ [1]) (folded 0 (buf ++ [1])) buf [1]).
      * split; [apply end_shape; [exact Hc|lia]|]. split; [reflexivity|]. rewrite app_length. cbn. lia.
      * rewrite good_parts, folded_app, N.add_0_l, lor_mod8. cbn [folded]. rewrite N.lor_0_r. change (1 mod 128) with 1. rewrite N.mul_1_l.
        assert (LL : exists j, N.of_nat (List.length buf) = j /\ (j = 1 \/ j = 2 \/ j = 3 \/ j = 4)) by (eexists; split; [reflexivity|lia]).
        destruct LL as (j & -> & J). clear C L Z.
        assert (P : (2 ^ ((7 * j) mod 64)) mod 2 ^ 64 < 2 ^ 32 /\ ((2 ^ ((7 * j) mod 64)) mod 2 ^ 64) mod 8 = 0 /\ 2 ^ 3 <= (2 ^ ((7 * j) mod 64)) mod 2 ^ 64).
        { destruct J as [->|[->|[->| ->]]]; vm_compute; repeat split; discriminate. }
        destruct P as (P1 & P2 & P3). rewrite P2, N.lor_0_r. split; [apply lor_lt; assumption|]. split; [|exact T].
        destruct (N.le_gt_cases 8 (N.lor (folded 0 buf) (2 ^ ((7 * j) mod 64) mod 2 ^ 64))) as [G|G]; [exact G|exfalso].
        change 8 with (2 ^ 3) in G. apply lor_small in G as [_ G]. lia.
      * reflexivity.
      * repeat constructor.
    + destruct V as [V|V]; [lia|].
      apply (key_delivers Debug (buf ++ [0]) (folded 0 buf) buf [0]).
      * split; [apply done_shape; exact Hc|]. split; [|rewrite app_length; cbn; lia].
        rewrite folded_app. cbn [folded]. change (0 mod 128) with 0. rewrite N.mul_0_l. cbn. rewrite N.lor_0_r. reflexivity.
      * rewrite good_parts. auto.
      * reflexivity.
      * repeat constructor.
  - destruct (far_bit buf 3 Hc ltac:(lia)) as (m1 & C1 & E1). assert (Cb : continued (buf ++ m1)) by (apply Forall_app; auto).
    assert (CB : forall l, continued l -> bytes l) by (intros l; apply Forall_impl; intros x Hx; unfold is_byte; lia).
    assert (Z : forall l, folded 0 (l ++ [0]) = folded 0 l).
    { intros l. rewrite folded_app. cbn [folded]. change (0 mod 128) with 0. rewrite N.mul_0_l. cbn. apply N.lor_0_r. }
    pose proof (N.mod_lt (folded 0 buf) 8 ltac:(lia)) as Ma.
    assert (G8 : forall x, 8 <= N.lor (N.lor (folded 0 buf) (2 ^ 3)) x).
    { intros x. destruct (N.le_gt_cases 8 (N.lor (N.lor (folded 0 buf) (2 ^ 3)) x)) as [G|G]; [exact G|exfalso].
      change 8 with (2 ^ 3) in G. apply lor_small in G as [G _]. apply lor_small in G as [_ G]. lia. }
    destruct (N.eq_dec (folded 0 buf mod 8) 4) as [F|F].
    + destruct (far_bit (buf ++ m1) 0 Cb ltac:(lia)) as (m2 & C2 & E2). rewrite <- app_assoc, E1 in E2.
      apply (key_delivers Release (buf ++ (m1 ++ m2) ++ [0]) (folded 0 (buf ++ m1 ++ m2)) buf ((m1 ++ m2) ++ [0])).
      * rewrite app_assoc. split; [apply done_shape; rewrite app_assoc; apply Forall_app; auto|]. split; [symmetry; apply Z|discriminate].
      * rewrite good_parts, E2. split; [apply lor_lt; [apply lor_lt; [exact H1|]|]; reflexivity|]. split; [apply G8|].
        rewrite !lor_mod8, F. vm_compute. auto.
      * reflexivity.
      * apply bytes_app. split; [apply CB; apply Forall_app; auto|repeat constructor].
    + apply (key_delivers Release (buf ++ m1 ++ [0]) (folded 0 (buf ++ m1)) buf (m1 ++ [0])).
      * rewrite app_assoc. split; [apply done_shape; exact Cb|]. split; [symmetry; apply Z|discriminate].
      * rewrite good_parts, E1. split; [apply lor_lt; [exact H1|reflexivity]|]. split; [rewrite <- (N.lor_0_r (N.lor _ _)); apply G8|].
        rewrite lor_mod8. change (2 ^ 3 mod 8) with 0. rewrite N.lor_0_r. lia.
      * reflexivity.
      * apply bytes_app. split; [apply CB; exact C1|repeat constructor].
Qed.

(* ------------------------------------------------------------------ *)
(* C110 (full statement: whenever a call waits, some octets make it deliver a field).  It
   holds exactly when the unfinished key, if it is a key, can still become one, and an
   unfinished length in a debug build has not ten octets already. *)
Theorem C110_exactly_partial : forall m p buf, bytes buf -> idle p -> call_waits m (decoder_of p) buf ->
  (deliverable m (decoder_of p) buf <->
   match p with
   | Start => key_hope m buf
   | GotKey _ LengthDelimited => m = Debug -> (List.length buf <= 9)%nat
   | _ => True
   end).
Proof.
  intros m p buf Hb Hp Hw. apply C107_exactly_partial in Hw; auto.
  assert (C : Forall (fun b => 128 <= b) buf -> continued buf).
  { intros H. apply Forall_forall. intros x Hx. pose proof (proj1 (Forall_forall _ _) H x Hx).
    pose proof (proj1 (Forall_forall _ _) Hb x Hx) as Bx. unfold is_byte in Bx. cbn in *. lia. }
  assert (F : p <> Start -> waiting m p buf -> (forall tag, p = GotKey tag LengthDelimited -> m = Debug -> (List.length buf <= 9)%nat) ->
    deliverable m (decoder_of p) buf).
  { intros H1 H2 H3. destruct (finish m p buf Hp H1 H2 H3) as (more & Bm & D). exact (delivers_call m p buf more Bm D). }
  destruct p as [|tag t|tag n].
  - destruct Hw as [Hw _]. apply C in Hw. split.
    + intros H. destruct (delivered_key m buf Hb Hw H) as (u & k & Hr & Hk). exact (key_needed m buf u k Hw Hr Hk).
    + exact (key_enough m buf Hb Hw).
  - destruct t; try (split; [constructor|intros _; apply F; [discriminate| |intros ? X; discriminate X]; cbn [waiting]; auto]; fail).
    + destruct Hw as [Hc Hl]. split.
      * intros (more & d' & rest0 & fs & n & Bm & Hne & E) ->.
        destruct (pdecode_total Debug (GotKey tag LengthDelimited) (buf ++ more) [] (proj2 (Forall_app _ _ _) (conj Hb Bm)) (idle_sane _ Hp))
          as (a & p1 & hs & rest & p2 & hs2 & o & E1 & Hi & He & E2).
        rewrite E in E2. injection E2 as _ _ Ef _. cbn [app] in Ef. subst fs.
        inversion Hi as [|q bs q1 h bs' q2 hs' Hit _ _]; subst.
        -- inversion He; subst. now elim Hne.
        -- inversion Hit as [| | | |tg bs0 n0 Hr|]; subst. destruct Hr as ((v & Hv) & _ & Hd). specialize (Hd eq_refl).
           destruct (Nat.le_gt_cases (List.length bs) (List.length buf)) as [K|K]; [|lia].
           exfalso. rewrite <- app_assoc in E1. exact (continued_not_leb _ _ _ _ _ (C Hc) Hv K E1).
      * intros H. apply F; [discriminate|split; auto|]. intros tg _. exact H.
  - split; [constructor|]. intros _. apply F; [discriminate|exact Hw|intros ? X; discriminate X].
Qed.
Print Assumptions C110_exactly_partial.

(* ------------------------------------------------------------------ *)
(* It fails: a key whose wire type is 3, 4, 6 or 7 is known to be bad from its first octet,
   and is waited for (in a release build one of wire type 4 can even be mended, by a group
   folded onto the first). *)
Theorem C110_wire_type_refuted : forall m b, 128 <= b < 256 -> b mod 8 = 3 \/ b mod 8 = 6 \/ b mod 8 = 7 \/ (b mod 8 = 4 /\ m = Debug) ->
  call_waits m pdecoder_default [b] /\ ~ deliverable m pdecoder_default [b].
Proof.
  intros m b Hb Ht.
  assert (Bb : bytes [b]) by (constructor; [unfold is_byte; lia|constructor]).
  assert (W : call_waits m (decoder_of Start) [b]).
  { apply C107_exactly_partial; [exact Bb|exact Logic.I|]. split; [constructor; [lia|constructor]|cbn; lia]. }
  split; [exact W|]. intros D. apply (C110_exactly_partial m Start [b] Bb Logic.I W) in D.
  assert (E : folded 0 [b] mod 8 = b mod 8).
  { cbn [folded]. rewrite N.lor_0_r. change ((7 * 0) mod 64) with 0. rewrite N.pow_0_r, N.mul_1_r.
    rewrite (N.mod_small (b mod 128)) by (pose proof (N.mod_lt b 128 ltac:(lia)); change (2 ^ 64) with 18446744073709551616; lia).
    change 128 with (8 * 16). rewrite N.mod_mul_r by lia. rewrite (N.mul_comm 8 (_ mod 16)), N.mod_add by lia.
    apply N.mod_mod. lia. }
  unfold key_hope in D. cbv zeta in D. rewrite E in D. destruct D as [_ D].
  destruct Ht as [Ht|[Ht|[Ht|[Ht X]]]]; rewrite Ht in D; [| | |rewrite X in D]; try destruct m; intuition discriminate.
Qed.
Print Assumptions C110_wire_type_refuted.

(* A key that is too large already. *)
Theorem C110_large_refuted : forall m,
  call_waits m pdecoder_default [128; 128; 128; 128; 144] /\ ~ deliverable m pdecoder_default [128; 128; 128; 128; 144].
Proof.
  intros m. set (b := [128; 128; 128; 128; 144]).
  assert (Bb : bytes b) by (repeat constructor; unfold is_byte; lia).
  assert (W : call_waits m (decoder_of Start) b).
  { apply C107_exactly_partial; [exact Bb|exact Logic.I|]. split; [repeat constructor; lia|cbn; lia]. }
  split; [exact W|]. intros D. apply (C110_exactly_partial m Start b Bb Logic.I W) in D.
  destruct D as [D _]. vm_compute in D. discriminate D.
Qed.
Print Assumptions C110_large_refuted.

(* Ten octets of a key or of a length in a debug build: an eleventh panics. *)
Theorem C110_ten_refuted : forall tag, 1 <= tag < 2 ^ 29 ->
  (call_waits Debug (mkP tag LengthDelimited None) (repeat 128 10) /\
   ~ deliverable Debug (mkP tag LengthDelimited None) (repeat 128 10)) /\
  call_waits Debug pdecoder_default (repeat 128 10) /\ ~ deliverable Debug pdecoder_default (repeat 128 10).
Proof.
  intros tag Ht. set (b := repeat 128 10).
  assert (Bb : bytes b) by (repeat constructor; unfold is_byte; lia).
  assert (Cb : Forall (fun x => 128 <= x) b) by (repeat constructor; lia).
  assert (Ip : idle (GotKey tag LengthDelimited)) by (split; [exact Ht|discriminate]).
  assert (W : call_waits Debug (decoder_of (GotKey tag LengthDelimited)) b).
  { apply C107_exactly_partial; [exact Bb|exact Ip|]. split; [exact Cb|cbn; lia]. }
  assert (W2 : call_waits Debug (decoder_of Start) b).
  { apply C107_exactly_partial; [exact Bb|exact Logic.I|]. split; [exact Cb|cbn; lia]. }
  split; split.
  - exact W.
  - intros D. pose proof (proj1 (C110_exactly_partial Debug (GotKey tag LengthDelimited) b Bb Ip W) D eq_refl) as D2. cbn in D2. lia.
  - exact W2.
  - intros D. apply (C110_exactly_partial Debug Start b Bb Logic.I W2) in D. destruct D as (_ & D & _). cbn in D. lia.
Qed.
Print Assumptions C110_ten_refuted.

(* An unfinished key that can be completed, and one of wire type 4 that a release build lets
   be mended by the 65th octet. *)
Example C110_case : forall m,
  call_waits m pdecoder_default [136] /\ deliverable m pdecoder_default [136] /\
  deliverable Release pdecoder_default [132] /\
  fst (pdecode Release pdecoder_default ([140] ++ repeat 128 63 ++ [1; 1; 2; 3; 4]) []) =
    (pdecoder_default, [], [(1, Bit32, [1; 2; 3; 4])]).
Proof.
  intros m. assert (W : forall m b, 128 <= b < 256 -> call_waits m (decoder_of Start) [b]).
  { intros m' b Hb. apply C107_exactly_partial; [constructor; [unfold is_byte; lia|constructor]|exact Logic.I|].
    split; [constructor; [lia|constructor]|cbn; lia]. }
  refine (conj (W m 136 _) (conj _ (conj _ _))); [lia| | |vm_compute; reflexivity].
  - apply (C110_exactly_partial m Start [136]); [repeat constructor|exact Logic.I|apply W; lia|].
    split; [reflexivity|]. destruct m; [|vm_compute; repeat split; discriminate].
    split; [cbn; lia|]. split; [left; reflexivity|left; cbn; lia].
  - apply (C110_exactly_partial Release Start [132]); [repeat constructor|exact Logic.I|apply W; lia|].
    split; [reflexivity|]. vm_compute; repeat split; discriminate.
Qed.
