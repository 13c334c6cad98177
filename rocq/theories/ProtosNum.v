(* Varints, two's complement, ZigZag and little-endian octets as the protobuf
   primitives compute them. *)
From Verif Require Import Base Leb ProtosModel ProtosSpec ProtosApi.
Open Scope N_scope.

(* ------------------------------------------------------------------ *)
(* Shortest varints. *)
Lemma shortest_unique v a b : shortest v a -> shortest v b -> a = b.
Proof.
  intros [Ha Ma] [Hb Mb]. eapply leb_length_inj; eauto. specialize (Ma _ Hb). specialize (Mb _ Ha). lia.
Qed.

Lemma shortest_small v : v < 128 -> shortest v [v].
Proof. intros H. apply leb_min_intro; [now constructor | now left]. Qed.

Lemma shortest_big v bs : 128 <= v -> shortest (v / 128) bs -> shortest v ((128 + v mod 128) :: bs).
Proof.
  intros Hv [Hl Hm]. split.
  - pose proof (leb_more (v mod 128) bs (v / 128)) as H.
    rewrite (N.add_comm (v mod 128)), <- N.div_mod in H by lia.
    apply H; [apply N.mod_lt; lia | exact Hl].
  - intros bs' H'. inversion H'; subst; [lia|].
    cbn [length]. apply le_n_S. apply Hm.
    rewrite N.add_comm, N.mul_comm, N.div_add_l, N.div_small by lia. now rewrite N.add_0_r.
Qed.

Lemma shortest_exists n v : v < 128 ^ N.of_nat (S n) -> exists bs, shortest v bs /\ (length bs <= S n)%nat.
Proof.
  revert v. induction n as [|n IH]; intros v Hv.
  - change (128 ^ N.of_nat 1) with 128 in Hv. exists [v]. split; [now apply shortest_small | simpl; lia].
  - destruct (N.lt_ge_cases v 128) as [H|H].
    + exists [v]. split; [now apply shortest_small | simpl; lia].
    + destruct (IH (v / 128)) as (bs & Hb & Hn).
      { apply N.div_lt_upper_bound; [lia|]. rewrite Nat2N.inj_succ, N.pow_succ_r in Hv by lia. exact Hv. }
      exists ((128 + v mod 128) :: bs). split; [now apply shortest_big | simpl; lia].
Qed.

Lemma shortest64 v : v < 2 ^ 64 -> exists bs, shortest v bs /\ (1 <= length bs <= 10)%nat.
Proof.
  intros H. destruct (shortest_exists 9 v) as (bs & Hb & Hn).
  { change (128 ^ N.of_nat 10) with (2 ^ 70). eapply N.lt_trans; [exact H|]. reflexivity. }
  exists bs. split; [exact Hb|]. split; [|exact Hn]. destruct Hb as [Hb _]. apply leb_nonempty in Hb.
  destruct bs; [congruence | simpl; lia].
Qed.

Lemma shortest_length v bs n : shortest v bs -> v < 128 ^ N.of_nat (S n) -> (length bs <= S n)%nat.
Proof.
  intros H Hv. destruct (shortest_exists n v Hv) as (bs' & H' & Hn).
  now rewrite (shortest_unique _ _ _ H H').
Qed.

Lemma shortest64_length v bs : shortest v bs -> v < 2 ^ 64 -> (1 <= length bs <= 10)%nat.
Proof.
  intros H Hv. destruct (shortest64 v Hv) as (bs' & H' & Hn). now rewrite (shortest_unique _ _ _ H H').
Qed.

Lemma shortest_groups v bs : shortest v bs ->
  v < 128 ^ N.of_nat (length bs) /\ (length bs = 1%nat \/ 128 ^ N.of_nat (length bs - 1) <= v).
Proof.
  intros [Hl Hm]. split; [now apply leb_bound|].
  destruct (Nat.eq_dec (length bs) 1) as [|Hn]; [now left|right].
  apply N.le_ngt. intros Hlt.
  assert (Hb : bs <> []) by (eapply leb_nonempty; eauto).
  destruct (length bs) as [|[|n]] eqn:E; [destruct bs; simpl in *; congruence | lia |].
  destruct (shortest_exists n v) as (bs' & [Hb' _] & Hn').
  { replace (S n) with (S (S n) - 1)%nat by lia. exact Hlt. }
  specialize (Hm _ Hb'). lia.
Qed.

Lemma shortest_last v bs : shortest v bs -> v <> 0 -> last bs 0 <> 0.
Proof.
  intros [Hl Hm] Hv. revert Hm. induction Hl as [b Hb | b bs v Hb Hl IH]; intros Hm.
  - exact Hv.
  - destruct (N.eq_dec v 0) as [->|Hv'].
    + exfalso. specialize (Hm [b + 128 * 0]). rewrite N.mul_0_r, N.add_0_r in Hm.
      specialize (Hm (leb_last b Hb)). apply leb_nonempty in Hl. destruct bs; [congruence|simpl in Hm; lia].
    + pose proof (leb_nonempty _ _ Hl). destruct bs as [|c bs]; [congruence|].
      change (last (128 + b :: c :: bs) 0) with (last (c :: bs) 0). apply IH; [assumption|].
      intros bs' H'. specialize (Hm _ (leb_more b bs' v Hb H')). simpl in *. lia.
Qed.

(* ------------------------------------------------------------------ *)
(* Writers. *)
Lemma write_all_app s a b : write_all s (a ++ b) = binds (write_all s a) (fun s _ => write_all s b).
Proof.
  destruct s as [w [r|]]; unfold write_all; cbn [room written].
  - rewrite app_length, Nat2N.inj_add.
    destruct (N.leb_spec (N.of_nat (length a)) r) as [Ha|Ha]; cbn [binds room written].
    + replace (N.of_nat (length a) + N.of_nat (length b) <=? r)
        with (N.of_nat (length b) <=? r - N.of_nat (length a)) by lia.
      destruct (N.leb_spec (N.of_nat (length b)) (r - N.of_nat (length a))) as [Hb|Hb].
      * rewrite app_assoc. do 2 f_equal. f_equal. lia.
      * rewrite <- app_assoc. rewrite firstn_app. rewrite (firstn_all2 a) by lia.
        repeat f_equal. lia.
    + replace (N.of_nat (length a) + N.of_nat (length b) <=? r) with false by lia.
      rewrite firstn_app. replace (N.to_nat r - length a)%nat with 0%nat by lia.
      now rewrite firstn_O, app_nil_r.
  - cbn [binds room written]. now rewrite <- app_assoc.
Qed.

Lemma delivered_eq s bs :
  delivered s bs = binds (write_all s bs) (fun s _ => (s, Ok (N.of_nat (length bs)))).
Proof.
  destruct s as [w [r|]]; unfold delivered, write_all; cbn [room written]; [|reflexivity].
  now destruct (N.of_nat (length bs) <=? r).
Qed.

Lemma binds_assoc {D E A B C} (x : D * outcome E A) (f : D -> A -> D * outcome E B) (g : D -> B -> D * outcome E C) :
  binds (binds x f) g = binds x (fun d a => binds (f d a) g).
Proof. now destruct x as [d [a|e| |]]. Qed.

Lemma binds_ext {D E A B} (x : D * outcome E A) (f g : D -> A -> D * outcome E B) :
  (forall d a, f d a = g d a) -> binds x f = binds x g.
Proof. intros H. destruct x as [d [a|e| |]]; simpl; auto. Qed.

(* Two writes in a row. *)
Lemma delivered_seq s a b (f : N -> N -> N) :
  f (N.of_nat (length a)) (N.of_nat (length b)) = N.of_nat (length (a ++ b)) ->
  binds (delivered s a) (fun s n => binds (delivered s b) (fun s k => (s, Ok (f n k)))) = delivered s (a ++ b).
Proof.
  intros Hf. rewrite !delivered_eq, write_all_app, !binds_assoc. apply binds_ext. intros d _. cbn [binds].
  rewrite delivered_eq, !binds_assoc. apply binds_ext. intros d' _. cbn [binds]. now rewrite Hf.
Qed.

Lemma delivered_vec dst bs : delivered (vec_sink dst) bs = (vec_sink (dst ++ bs), Ok (N.of_nat (length bs))).
Proof. reflexivity. Qed.

(* ------------------------------------------------------------------ *)
(* The varint encoder. *)
Lemma land127 v : N.land v 127 = v mod 128.
Proof. change 127 with (2 ^ 7 - 1). apply land_ones_mod. Qed.

Lemma group_octet v : wrap 8 (N.lor (N.land v 127) 128) = 128 + v mod 128.
Proof.
  rewrite land127, N.lor_comm. change 128 with (1 * 2 ^ 7) at 1.
  rewrite lor_add_low by (apply N.mod_lt; lia). change (1 * 2 ^ 7) with 128.
  unfold wrap. change (2 ^ 8) with 256. pose proof (N.mod_lt v 128). rewrite N.mod_small; lia.
Qed.

Lemma varint_loop_spec fuel v size s bs :
  v < 128 ^ N.of_nat (S fuel) -> shortest v bs ->
  pencode_varint_loop fuel v size s = binds (write_all s bs) (fun s _ => (s, Ok (size + N.of_nat (length bs)))).
Proof.
  revert v size s bs. induction fuel as [|fuel IH]; intros v size s bs Hv Hs.
  - change (128 ^ N.of_nat 1) with 128 in Hv.
    rewrite (shortest_unique _ _ _ Hs (shortest_small v Hv)).
    cbn [pencode_varint_loop]. apply N.ltb_lt in Hv as E. rewrite E.
    rewrite land127. unfold wrap. change (2 ^ 8) with 256. rewrite !N.mod_small by (rewrite ?N.mod_small; lia).
    reflexivity.
  - cbn [pencode_varint_loop]. destruct (N.ltb_spec v 128) as [H|H].
    + rewrite (shortest_unique _ _ _ Hs (shortest_small v H)).
      rewrite land127. unfold wrap. change (2 ^ 8) with 256. rewrite !N.mod_small by (rewrite ?N.mod_small; lia).
      reflexivity.
    + destruct (shortest_exists fuel (v / 128)) as (bs' & Hb & Hn).
      { apply N.div_lt_upper_bound; [lia|]. rewrite Nat2N.inj_succ, N.pow_succ_r in Hv by lia. exact Hv. }
      rewrite (shortest_unique _ _ _ Hs (shortest_big v bs' H Hb)).
      change (128 + v mod 128 :: bs') with ([128 + v mod 128] ++ bs').
      rewrite write_all_app, binds_assoc, group_octet. apply binds_ext. intros d _.
      rewrite N.shiftr_div_pow2. change (2 ^ 7) with 128.
      rewrite (IH _ _ _ bs').
      * apply binds_ext. intros d' _. do 2 f_equal. cbn [length app]. lia.
      * apply N.div_lt_upper_bound; [lia|]. rewrite Nat2N.inj_succ, N.pow_succ_r in Hv by lia. exact Hv.
      * exact Hb.
Qed.

Lemma pencode_varint_spec v s bs : v < 2 ^ 64 -> shortest v bs -> pencode_varint v s = delivered s bs.
Proof.
  intros Hv Hs. unfold pencode_varint. rewrite (varint_loop_spec 10 v 0 s bs); [|eapply N.lt_trans; [exact Hv|reflexivity] | exact Hs].
  rewrite delivered_eq. apply binds_ext. intros. now rewrite N.add_0_l.
Qed.

(* ------------------------------------------------------------------ *)
(* The varint decoder. *)
Lemma folded_step m i b : (m = Debug -> i <= 9) ->
  @u_shl pdec_error m 64 (N.land b 127) (7 * i) = Ok ((b mod 128 * 2 ^ ((7 * i) mod 64)) mod 2 ^ 64).
Proof.
  intros Hi. unfold u_shl. rewrite land127.
  destruct (N.ltb_spec (7 * i) 64) as [H|H].
  - now rewrite N.shiftl_mul_pow2, (N.mod_small (7 * i)).
  - destruct m; [specialize (Hi eq_refl); lia|]. cbn [overflow]. now rewrite N.shiftl_mul_pow2.
Qed.

Lemma varint_loop_value m bs v rest : leb128 bs v -> forall acc i, (m = Debug -> i + N.of_nat (length bs) <= 10) ->
  pdecode_varint_loop m (bs ++ rest) acc i = Ok (N.lor acc (folded i bs), i + N.of_nat (length bs)).
Proof.
  induction 1 as [b Hb | b bs v Hb Hl IH]; intros acc i Hi; cbn [app length] in *; cbn [pdecode_varint_loop].
  - rewrite folded_step by (intros E; specialize (Hi E); lia). cbn [bind].
    replace (b <=? 127) with true by lia. cbn [folded]. rewrite N.lor_0_r. repeat f_equal.
  - rewrite folded_step by (intros E; specialize (Hi E); lia). cbn [bind].
    replace (128 + b <=? 127) with false by lia. rewrite IH by (intros E; specialize (Hi E); lia).
    cbn [folded]. rewrite <- N.lor_assoc. do 2 f_equal. lia.
Qed.

Lemma varint_loop_short m rest : continued rest -> forall acc i, (m = Debug -> i + N.of_nat (length rest) <= 10) ->
  pdecode_varint_loop m rest acc i = Err PInputUnderflow.
Proof.
  induction 1 as [|b rest Hb Hc IH]; intros acc i Hi; cbn [length] in *; cbn [pdecode_varint_loop]; [reflexivity|].
  rewrite folded_step by (intros E; specialize (Hi E); lia). cbn [bind].
  replace (b <=? 127) with false by lia. apply IH. intros E; specialize (Hi E); lia.
Qed.

Lemma varint_loop_long bs x : continued bs -> x <> [] -> forall acc i, i + N.of_nat (length bs) = 10 ->
  pdecode_varint_loop Debug (bs ++ x) acc i = Panic.
Proof.
  intros Hc Hx. induction Hc as [|b rest Hb Hc IH]; intros acc i Hi; cbn [length app] in *.
  - destruct x as [|c x]; [congruence|]. cbn [pdecode_varint_loop]. unfold u_shl.
    replace (7 * i <? 64) with false by lia. reflexivity.
  - cbn [pdecode_varint_loop]. rewrite folded_step by lia. cbn [bind].
    replace (b <=? 127) with false by lia. apply IH. lia.
Qed.

Lemma pdecode_varint_value m bs v rest : reads m bs v -> pdecode_varint m (bs ++ rest) = Ok (v, N.of_nat (length bs)).
Proof.
  intros ((w & Hl) & -> & Hm). unfold pdecode_varint. rewrite (varint_loop_value m bs w rest Hl 0 0).
  - now rewrite N.lor_0_l, N.add_0_l.
  - intros E. specialize (Hm E). lia.
Qed.

Lemma pdecode_varint_short m t : short_varint m t -> pdecode_varint m t = Err PInputUnderflow.
Proof.
  intros (Hc & Hm). apply varint_loop_short; [exact Hc|]. intros E. specialize (Hm E). lia.
Qed.

Lemma pdecode_varint_long m t : overlong m t -> pdecode_varint m t = Panic.
Proof.
  intros (-> & bs & x & -> & Hc & Hn & Hx). apply varint_loop_long; auto. lia.
Qed.

Lemma leb_or_continued b : bytes b ->
  (exists bs v rest, b = bs ++ rest /\ leb128 bs v) \/ continued b.
Proof.
  intros Hb. destruct (leb_scan (S (length b)) b Hb) as [(t & r & rest & -> & Hl & _)|[(Hc & _)|(t & rest & -> & Hc & Hn)]].
  - left. eauto.
  - now right.
  - rewrite app_length in Hn. lia.
Qed.

Lemma leb_init bs v : leb128 bs v -> exists a b, bs = a ++ [b] /\ continued a.
Proof.
  induction 1 as [b Hb|b bs v Hb Hl (a & c & -> & Hc)].
  - exists [], b. split; [reflexivity|constructor].
  - exists (128 + b :: a), c. split; [reflexivity|]. constructor; [lia|exact Hc].
Qed.

Lemma continued_app a b : continued (a ++ b) <-> continued a /\ continued b.
Proof. apply Forall_app. Qed.

Lemma cont_firstn n a : continued a -> continued (firstn n a).
Proof. intros H. rewrite <- (firstn_skipn n a) in H. now apply continued_app in H. Qed.

(* The three possibilities for the octets at hand. *)
Lemma varint_cases m b : bytes b ->
  (exists bs v rest, b = bs ++ rest /\ reads m bs v) \/ short_varint m b \/ overlong m b.
Proof.
  intros Hb. destruct (leb_or_continued b Hb) as [(bs & v & rest & -> & Hl)|Hc].
  - destruct (Nat.le_gt_cases (length bs) 10) as [Hn|Hn].
    + left. exists bs, (folded 0 bs), rest. split; [reflexivity|]. split; [now exists v|]. split; [reflexivity|auto].
    + destruct m.
      * right; right. split; [reflexivity|]. destruct (leb_init bs v Hl) as (a & c & -> & Hc).
        rewrite app_length in Hn. cbn [length] in Hn.
        exists (firstn 10 a), (skipn 10 a ++ [c] ++ rest).
        rewrite app_assoc, firstn_skipn, <- app_assoc. split; [reflexivity|].
        split; [now apply cont_firstn|]. split; [rewrite firstn_length; lia|].
        now destruct (skipn 10 a).
      * left. exists bs, (folded 0 bs), rest. split; [reflexivity|]. split; [now exists v|]. split; [reflexivity|discriminate].
  - destruct m.
    + destruct (Nat.le_gt_cases (length b) 10) as [Hn|Hn].
      * right; left. split; auto.
      * right; right. split; [reflexivity|]. exists (firstn 10 b), (skipn 10 b).
        split; [now rewrite firstn_skipn|]. split; [now apply cont_firstn|].
        split; [rewrite firstn_length; lia|]. intros E. apply (f_equal (@length N)) in E.
        rewrite skipn_length in E. cbn [length] in E. lia.
    + right; left. split; [exact Hc|discriminate].
Qed.

Lemma pdecode_varint_result m b : bytes b -> varint_result m b (pdecode_varint m b).
Proof.
  intros Hb. destruct (varint_cases m b Hb) as [(bs & v & rest & -> & Hr)|[Hs|Hl]].
  - rewrite (pdecode_varint_value m bs v rest Hr). eapply vr_value; eauto.
  - rewrite (pdecode_varint_short m b Hs). destruct Hs. now apply vr_short.
  - rewrite (pdecode_varint_long m b Hl). destruct Hl as (-> & bs & x & -> & Hc & Hn & Hx). eapply vr_long; eauto.
Qed.

Lemma varint_result_fun m b o : varint_result m b o -> o = pdecode_varint m b.
Proof.
  intros [bs rest v -> Hr | Hc Hn | bs x -> -> Hc Hn Hx]; symmetry.
  - now apply pdecode_varint_value.
  - apply pdecode_varint_short. now split.
  - apply pdecode_varint_long. split; [reflexivity|]. eauto 8.
Qed.

(* Value of varints of at most ten octets. *)
Lemma lor_mod a b n : N.lor (a mod 2 ^ n) (b mod 2 ^ n) = N.lor a b mod 2 ^ n.
Proof. rewrite <- !N.land_ones. now rewrite N.land_lor_distr_l. Qed.

Lemma folded_value bs v : leb128 bs v -> forall i, i + N.of_nat (length bs) <= 10 ->
  folded i bs = (v * 2 ^ (7 * i)) mod 2 ^ 64.
Proof.
  induction 1 as [b Hb | b bs v Hb Hl IH]; intros i Hi; cbn [length] in *; cbn [folded].
  - rewrite N.lor_0_r, (N.mod_small (7 * i)), (N.mod_small b) by lia. reflexivity.
  - rewrite IH by lia. rewrite (N.mod_small (7 * i)) by lia.
    replace ((128 + b) mod 128) with b.
    2:{ rewrite N.add_comm. change (b + 128) with (b + 1 * 128). rewrite N.mod_add, N.mod_small; lia. }
    rewrite lor_mod. f_equal. rewrite N.lor_comm.
    rewrite lor_add_low.
    + replace (7 * (i + 1)) with (7 + 7 * i) by lia. rewrite N.pow_add_r. change (2 ^ 7) with 128. ring.
    + replace (7 * (i + 1)) with (7 + 7 * i) by lia. rewrite N.pow_add_r. change (2 ^ 7) with 128.
      apply N.mul_lt_mono_pos_r; [apply pow2_pos|exact Hb].
Qed.

Lemma folded_exact bs v : leb128 bs v -> (length bs <= 10)%nat -> v < 2 ^ 64 -> folded 0 bs = v.
Proof.
  intros H Hn Hv. rewrite (folded_value bs v H 0) by lia. rewrite N.mul_0_r, N.pow_0_r, N.mul_1_r. now apply N.mod_small.
Qed.

Lemma reads_shortest m bs v : shortest v bs -> v < 2 ^ 64 -> reads m bs v.
Proof.
  intros H Hv. pose proof (shortest64_length v bs H Hv) as Hn. destruct H as [Hl _].
  split; [now exists v|]. split; [symmetry; apply folded_exact; auto; lia | intros _; lia].
Qed.

Lemma folded_bound bs i : folded i bs < 2 ^ 64.
Proof.
  revert i. induction bs as [|b bs IH]; intros i; cbn [folded]; [reflexivity|].
  rewrite <- (N.mod_small (folded (i + 1) bs) (2 ^ 64)) by apply IH.
  rewrite lor_mod. apply N.mod_lt. discriminate.
Qed.

Lemma reads_bound m bs v : reads m bs v -> v < 2 ^ 64.
Proof. intros (_ & -> & _). apply folded_bound. Qed.

Lemma reads_nonempty m bs v : reads m bs v -> bs <> [].
Proof. intros ((w & Hl) & _). eapply leb_nonempty; eauto. Qed.

Lemma reads_prefix_free m a v b w x y : reads m a v -> reads m b w -> a ++ x = b ++ y -> a = b /\ v = w /\ x = y.
Proof.
  intros ((v' & Ha) & -> & _) ((w' & Hb) & -> & _) E.
  destruct (leb_prefix_free _ _ _ _ _ _ Ha Hb E) as (-> & _ & ->). auto.
Qed.
