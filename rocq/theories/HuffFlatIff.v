(* When exactly does the matrix `flatten` builds represent the code? (C10) *)
From Verif Require Import Base HuffTables HuffModel HuffTree HuffFlat HuffFlatPanic.
Open Scope list_scope.
Open Scope N_scope.

Lemma no_rows : forall ps : list (list bool),
  NoDup ps -> Forall (fun _ => False) ps -> (length ps <= 256)%nat.
Proof. intros ps _ H. destruct H; [simpl; lia|contradiction]. Qed.

Section Iff.
Variable sp : nat.
Hypothesis sp_pos : (0 < sp)%nat.
Hypothesis sp_le : (sp <= 5)%nat.

(* The i-th chunk (counted from the front) of the [n] chunks of a [v] padded with [pad]
   zeros: as flatten computes it on u32, and as it should be. *)
Definition key (n pad : nat) (v : N) (i : nat) : N :=
  N.shiftr (N.shiftl v (N.of_nat pad) mod 2 ^ 32) ((N.of_nat (n - 1 - i) * N.of_nat sp) mod 32)
    mod 2 ^ N.of_nat sp.
Definition tkey (n pad : nat) (v : N) (i : nat) : N :=
  N.shiftr (v * 2 ^ N.of_nat pad) (N.of_nat (n - 1 - i) * N.of_nat sp) mod 2 ^ N.of_nat sp.

Lemma last_key n pad v : (pad < sp)%nat -> (1 <= n)%nat ->
  key n pad v (n - 1) = tkey n pad v (n - 1).
Proof.
  intros Hp Hn. unfold key, tkey. replace (n - 1 - (n - 1))%nat with 0%nat by lia.
  change (N.of_nat 0 * N.of_nat sp) with 0. change (0 mod 32) with 0.
  rewrite !N.shiftr_0_r, N.shiftl_mul_pow2.
  replace 32 with ((32 - N.of_nat sp) + N.of_nat sp) by lia.
  rewrite N.pow_add_r. rewrite (N.mul_comm (2 ^ (32 - _))).
  rewrite N.mod_mul_r by (apply N.pow_nonzero; lia).
  rewrite (N.mul_comm (2 ^ N.of_nat sp) (_ mod _)), N.mod_add by (apply N.pow_nonzero; lia).
  apply N.mod_mod. apply N.pow_nonzero; lia.
Qed.

Lemma gen_explicit m l v : (1 <= l)%nat ->
  (m = Release \/ (l - 1) / sp * sp < 32)%nat ->
  exists n pad,
    ceil_div (N.of_nat l) (N.of_nat sp) = N.of_nat n /\
    (n * sp = l + pad)%nat /\ (pad < sp)%nat /\ (1 <= n)%nat /\
    u_sub m 64 (ceil_div (N.of_nat l) (N.of_nat sp) * N.of_nat sp) (N.of_nat l)
      = Ok (N.of_nat pad) :> outcome huff_error N /\
    generate_coding_paths m (N.of_nat l, v) (N.of_nat sp) =
      Ok (map (fun i => map (key n pad v) (seq 0 (n - 1)) ++ [key n pad v (n - 1) + N.of_nat i])
              (seq 0 (2 ^ pad))).
Proof.
  intros Hl Hm.
  destruct (ceil_div_spec sp sp_pos l Hl) as (n & pad & Hn & Hpad & Hps & Hn1).
  exists n, pad. split; [exact Hn|]. split; [exact Hpad|]. split; [exact Hps|]. split; [exact Hn1|].
  set (bits := N.shiftl v (N.of_nat pad) mod 2 ^ 32).
  assert (Hsub : u_sub m 64 (ceil_div (N.of_nat l) (N.of_nat sp) * N.of_nat sp) (N.of_nat l)
      = Ok (N.of_nat pad) :> outcome huff_error N).
  { rewrite Hn, u_sub_ok by nia. f_equal. nia. }
  split; [exact Hsub|].
  assert (Hdiv : ((l - 1) / sp = n - 1)%nat).
  { symmetry. apply (Nat.div_unique (l - 1) sp (n - 1) (sp - 1 - pad)); [lia|]. nia. }
  unfold generate_coding_paths. cbn [fst snd]. rewrite Hsub. cbn [bind].
  assert (Hshl : u_shl m 32 v (N.of_nat pad) = Ok bits :> outcome huff_error N).
  { unfold u_shl. destruct (N.ltb_spec (N.of_nat pad) 32); [reflexivity|lia]. }
  rewrite Hshl. cbn [bind]. rewrite Hn, Nat2N.id.
  rewrite (coding_chunks_safe sp sp_pos sp_le).
  - cbn [bind].
    change (fun i : nat => N.shiftr bits ((N.of_nat (n - 1 - i) * N.of_nat sp) mod 32)
                             mod 2 ^ N.of_nat sp) with (key n pad v).
    assert (Hseq : seq 0 n = (seq 0 (n - 1) ++ [(n - 1)%nat])%list).
    { replace n with (n - 1 + 1)%nat at 1 by lia. now rewrite seq_app. }
    rewrite Hseq, map_app, rev_app_distr. cbn [map rev app]. rewrite rev_involutive.
    rewrite N2Nat.inj_pow, Nat2N.id. reflexivity.
  - apply Forall_forall. intros i Hi. apply in_seq in Hi. lia.
  - destruct Hm as [->|Hm]; [now left|right]. rewrite Hdiv in Hm.
    apply Forall_forall. intros i Hi. nia.
Qed.

Notation clen := (concat_len sp sp_pos _ no_rows).

(* The chunks of a bit string of n * sp bits. *)
Lemma chunk_values : forall post pre,
  Forall (fun ch : list bool => length ch = sp) (pre ++ post) ->
  map (fun i => N.shiftr (val (concat (pre ++ post)))
                  (N.of_nat (length (pre ++ post) - 1 - i) * N.of_nat sp) mod 2 ^ N.of_nat sp)
      (seq (length pre) (length post)) = map val post.
Proof.
  induction post as [|ch post IH]; intros pre Hf; [reflexivity|].
  cbn [length seq map].
  pose proof (IH (pre ++ [ch])) as IH'.
  rewrite <- app_assoc in IH'. simpl (_ ++ _ :: _) in IH' at 1.
  replace (length (pre ++ [ch])) with (S (length pre)) in IH' by (rewrite app_length; simpl; lia).
  cbn [app] in IH'. rewrite IH' by assumption. f_equal.
  assert (Hlen : length (pre ++ ch :: post) = S (length pre + length post)) by (rewrite app_length; simpl; lia).
  rewrite Hlen. replace (S (length pre + length post) - 1 - length pre)%nat with (length post) by lia.
  apply Forall_app in Hf. destruct Hf as [Hpre Hpost]. apply Forall_cons_iff in Hpost.
  destruct Hpost as [Hch Hpost].
  rewrite concat_app. cbn [concat]. rewrite N.shiftr_div_pow2.
  rewrite app_assoc, val_app, (clen post) by assumption.
  replace (N.of_nat (length post) * N.of_nat sp) with (N.of_nat (length post * sp)) by lia.
  rewrite N.div_add_l by (pose proof (pow2_pos (N.of_nat (length post * sp))); lia).
  rewrite (N.div_small (val (concat post)))
    by (rewrite <- (clen post) by assumption; apply val_lt).
  rewrite N.add_0_r, val_app, Hch, N.add_comm, N.mod_add
    by (pose proof (pow2_pos (N.of_nat sp)); lia).
  apply N.mod_small. rewrite <- Hch. apply val_lt.
Qed.

Lemma true_chunks l v n pad : v < 2 ^ N.of_nat l -> (n * sp = l + pad)%nat -> (pad < sp)%nat ->
  (1 <= n)%nat ->
  exists chs lastc,
    bits_of l v = concat chs ++ lastc /\
    Forall (fun ch => length ch = sp) chs /\ length chs = (n - 1)%nat /\
    (length lastc + pad = sp)%nat /\ (1 <= length lastc)%nat /\
    map val chs = map (tkey n pad v) (seq 0 (n - 1)) /\
    val lastc * 2 ^ N.of_nat pad = tkey n pad v (n - 1).
Proof.
  intros Hv Hpad Hps Hn1.
  destruct (chop sp sp_pos _ no_rows n (bits_of l v ++ repeat false pad)) as (all & Hall & Hf & Hc).
  { rewrite app_length, bits_of_length, repeat_length. lia. }
  pose proof (chunk_values all [] Hf) as Hkeys. cbn [app length] in Hkeys.
  rewrite Hall in Hkeys.
  assert (Hval : val (concat all) = v * 2 ^ N.of_nat pad).
  { rewrite Hc, val_app, repeat_length, (val_zeros sp sp_pos), val_bits_of_small by exact Hv. lia. }
  rewrite Hval in Hkeys. change (map (tkey n pad v) (seq 0 n) = map val all) in Hkeys.
  destruct (exists_last (l := all)) as (chs & last & ->).
  { intros ->. simpl in Hall. lia. }
  rewrite app_length in Hall; simpl in Hall.
  apply Forall_app in Hf. destruct Hf as [Hf Hlast]. apply Forall_cons_iff in Hlast.
  destruct Hlast as [Hlast _].
  rewrite concat_app in Hc. simpl in Hc. rewrite app_nil_r in Hc.
  assert (Hlc : length (concat chs) = (length chs * sp)%nat) by now apply clen.
  assert (Hll : (length chs * sp < l)%nat) by nia.
  assert (Hex : exists lastc, last = lastc ++ repeat false pad /\ bits_of l v = concat chs ++ lastc).
  { exists (skipn (length (concat chs)) (bits_of l v)).
    assert (H1 : firstn (length (concat chs)) (bits_of l v) = concat chs).
    { apply (f_equal (firstn (length (concat chs)))) in Hc.
      rewrite firstn_app, firstn_all, Nat.sub_diag, firstn_O, app_nil_r in Hc.
      rewrite firstn_app, bits_of_length in Hc.
      replace (length (concat chs) - l)%nat with 0%nat in Hc by lia.
      rewrite firstn_O, app_nil_r in Hc. congruence. }
    assert (H2 : bits_of l v = concat chs ++ skipn (length (concat chs)) (bits_of l v)).
    { rewrite <- H1 at 1. rewrite Hlc. symmetry. apply firstn_skipn. }
    split; [|exact H2].
    rewrite H2, <- app_assoc in Hc. apply app_inv_head in Hc. exact Hc. }
  destruct Hex as (lastc & Hlc1 & Hlc2).
  assert (Hlen : (length lastc + pad = sp)%nat).
  { rewrite Hlc1, app_length, repeat_length in Hlast. exact Hlast. }
  assert (Hseq : seq 0 n = (seq 0 (n - 1) ++ [(n - 1)%nat])%list).
  { replace n with (n - 1 + 1)%nat at 1 by lia. now rewrite seq_app. }
  rewrite Hseq, !map_app in Hkeys. cbn [map] in Hkeys. apply app_inj_tail in Hkeys.
  destruct Hkeys as [Hk1 Hk2].
  exists chs, lastc. split; [exact Hlc2|]. split; [exact Hf|]. split; [lia|]. split; [exact Hlen|].
  split; [lia|]. split; [now symmetry|].
  rewrite Hk2, Hlc1, val_app, repeat_length, (val_zeros sp sp_pos). lia.
Qed.

(* Every chunk computed on u32 is right. *)
Definition kept (c : N * N) : Prop :=
  forall n pad i, ceil_div (fst c) (N.of_nat sp) = N.of_nat n ->
    (n * sp = N.to_nat (fst c) + pad)%nat -> (i < n)%nat ->
    key n pad (snd c) i = tkey n pad (snd c) i.

Lemma kept_good m l v : (1 <= l)%nat -> v < 2 ^ N.of_nat l ->
  (m = Release \/ (l - 1) / sp * sp < 32)%nat -> kept (N.of_nat l, v) -> good sp m l v.
Proof.
  intros Hl Hv Hm Hk.
  destruct (gen_explicit m l v Hl Hm) as (n & pad & Hn & Hpad & Hps & Hn1 & E1 & E2).
  destruct (true_chunks l v n pad Hv Hpad Hps Hn1) as (chs & lastc & H1 & H2 & H3 & H4 & H5 & H6 & H7).
  exists chs, lastc, pad. split; [exact H1|]. split; [exact H2|]. split; [exact H4|].
  split; [exact H5|]. split; [exact E1|]. rewrite E2. f_equal. rewrite H6, H7.
  apply map_ext. intros i. f_equal.
  - apply map_ext_in. intros j Hj. apply in_seq in Hj. apply (Hk n pad j); cbn [fst snd]; try lia.
  - f_equal. f_equal. now apply last_key.
Qed.

(* ------------------------------------------------------------------ *)
(* What is in the matrix: pointers are never changed, symbols are only written at the
   end of their own paths. *)
Notation table := (list (list cell)).

Fixpoint follow (t : table) (i : nat) (keys : list N) : option nat :=
  match keys with
  | [] => Some i
  | k :: keys' =>
      match get t i (N.to_nat k) with
      | Some (Some j, _, _) => follow t (N.to_nat j) keys'
      | _ => None
      end
  end.

Definition ext (t t' : table) : Prop := forall i x j s l,
  get t i x = Some (Some j, s, l) -> exists s' l', get t' i x = Some (Some j, s', l').

Lemma ext_trans t1 t2 t3 : ext t1 t2 -> ext t2 t3 -> ext t1 t3.
Proof. intros H1 H2 i x j s l H. apply H1 in H. destruct H as (s' & l' & H). eauto. Qed.

Lemma follow_ext t t' : ext t t' -> forall keys i r, follow t i keys = Some r -> follow t' i keys = Some r.
Proof.
  intros He. induction keys as [|k keys IH]; intros i r H; [exact H|].
  cbn [follow] in *. destruct (get t i (N.to_nat k)) as [[[[j|] s] l]|] eqn:E; try discriminate H.
  apply He in E. destruct E as (s' & l' & ->). now apply IH.
Qed.

Definition small (t : table) : Prop :=
  (length t <= 256)%nat \/ exists i x s l, get t i x = Some (Some 0, s, l).

Lemma small_ext t t' : ext t t' -> length t' = length t -> small t -> small t'.
Proof.
  intros He Hl [H|(i & x & s & l & H)]; [left; lia|right].
  apply He in H. destruct H as (s' & l' & H). eauto.
Qed.

Lemma get_lt t i x c : get t i x = Some c -> (i < length t)%nat.
Proof.
  unfold get. destruct (nth_error t i) eqn:E; [|discriminate]. intros _.
  apply nth_error_Some. congruence.
Qed.

Lemma walk_hist : forall keys t id t' id',
  flatten_walk (blank sp) t id keys = Ok (t', id') ->
  ext t t' /\ follow t' (N.to_nat id) keys = Some (N.to_nat id') /\ (small t -> small t') /\
  (forall i x n k l, get t' i x = Some (n, Some k, l) -> exists n0, get t i x = Some (n0, Some k, l)).
Proof.
  induction keys as [|key keys IH]; intros t id t' id' H; cbn [flatten_walk] in H.
  - injection H as <- <-. split; [intros i x j s l H; eauto|]. split; [reflexivity|].
    split; [auto|]. intros i x n k l H. eauto.
  - destruct (nth_error t (N.to_nat id)) as [row|] eqn:Er; [|discriminate H].
    destruct (nth_error row (N.to_nat key)) as [[[[j|] s] l]|] eqn:Ec; [| |discriminate H].
    + assert (Hg : get t (N.to_nat id) (N.to_nat key) = Some (Some j, s, l)).
      { unfold get. now rewrite Er. }
      apply IH in H. destruct H as (H1 & H2 & H3 & H4).
      split; [exact H1|]. split; [|split; [exact H3|exact H4]].
      cbn [follow]. destruct (H1 _ _ _ _ _ Hg) as (s' & l' & ->). exact H2.
    + assert (Hg : get t (N.to_nat id) (N.to_nat key) = Some (None, s, l)).
      { unfold get. now rewrite Er. }
      set (nid := wrap 8 (N.of_nat (length t))) in *.
      set (t1 := update (t ++ [blank sp]) (N.to_nat id) _) in H.
      assert (Hlt : (N.to_nat id < length t)%nat) by (eapply get_lt; eauto).
      assert (Hget : forall i x, get t1 i x =
        if ((N.to_nat id =? i) && (N.to_nat key =? x))%nat then Some (Some nid, s, l)
        else if (i =? length t)%nat then nth_error (blank sp) x else get t i x).
      { intros i x.
        change t1 with (put (t ++ [blank sp]) (N.to_nat id) (N.to_nat key)
                            (fun c => (Some nid, snd (fst c), snd c))).
        rewrite get_put, (get_app sp sp_pos).
        destruct (Nat.eqb_spec (N.to_nat id) i) as [<-|]; cbn [andb].
        - destruct (Nat.eqb_spec (N.to_nat key) x) as [<-|]; [|reflexivity].
          destruct (Nat.eqb_spec (N.to_nat id) (length t)); [lia|]. rewrite Hg. reflexivity.
        - reflexivity. }
      assert (Hl1 : length t1 = S (length t)).
      { unfold t1. rewrite update_length, app_length. simpl. lia. }
      clearbody t1.
      assert (He : ext t t1).
      { intros i x j s0 l0 Hi. rewrite Hget.
        destruct ((N.to_nat id =? i) && (N.to_nat key =? x))%nat eqn:E.
        - rewrite andb_true_iff, !Nat.eqb_eq in E. destruct E as [<- <-]. congruence.
        - destruct (Nat.eqb_spec i (length t)); [apply get_lt in Hi; lia|]. eauto. }
      apply IH in H. destruct H as (H1 & H2 & H3 & H4).
      assert (Hnew : get t1 (N.to_nat id) (N.to_nat key) = Some (Some nid, s, l)).
      { rewrite Hget, !Nat.eqb_refl. reflexivity. }
      split; [eapply ext_trans; eauto|]. split; [|split].
      * cbn [follow]. destruct (H1 _ _ _ _ _ Hnew) as (s' & l' & ->). exact H2.
      * intros Hs. apply H3. destruct Hs as [Hs|(i & x & s0 & l0 & Hs)].
        -- destruct (Nat.eq_dec (length t) 256) as [E|Hne]; [right|left; lia].
           exists (N.to_nat id), (N.to_nat key), s, l. rewrite Hnew. unfold nid. rewrite E. reflexivity.
        -- right. destruct (He _ _ _ _ _ Hs) as (s' & l' & Hs'). eauto.
      * intros i x n k l0 Hi. destruct (H4 _ _ _ _ _ Hi) as [n0 Hi0]. rewrite Hget in Hi0.
        destruct ((N.to_nat id =? i) && (N.to_nat key =? x))%nat eqn:E.
        -- rewrite andb_true_iff, !Nat.eqb_eq in E. destruct E as [<- <-].
           injection Hi0 as _ -> <-. eauto.
        -- destruct (Nat.eqb_spec i (length t)).
           ++ apply (nth_blank_cell sp) in Hi0. discriminate Hi0.
           ++ eauto.
Qed.

(* Writing a symbol. *)
Lemma set_hist t id key asc lf t' : flatten_set t id key asc lf = Ok t' ->
  ext t t' /\ length t' = length t /\
  forall i x n k l, get t' i x = Some (n, Some k, l) ->
    (exists n0, get t i x = Some (n0, Some k, l)) \/ (i = N.to_nat id /\ k = wrap 16 asc).
Proof.
  unfold flatten_set. intros H.
  destruct (nth_error t (N.to_nat id)) as [row|] eqn:Er; [|discriminate H].
  destruct (nth_error row (N.to_nat key)) as [c|] eqn:Ec; [|discriminate H].
  injection H as H.
  assert (Hget : forall i x, get t' i x =
    if ((N.to_nat id =? i) && (N.to_nat key =? x))%nat
    then option_map (setc asc lf) (get t i x) else get t i x).
  { intros i x. rewrite <- H. apply (get_put t (N.to_nat id) (N.to_nat key) (setc asc lf)). }
  split; [|split].
  - intros i x j s l Hi. rewrite Hget, Hi.
    destruct ((N.to_nat id =? i) && (N.to_nat key =? x))%nat; eexists; eexists; reflexivity.
  - rewrite <- H. apply update_length.
  - intros i x n k l Hi. rewrite Hget in Hi.
    destruct ((N.to_nat id =? i) && (N.to_nat key =? x))%nat eqn:E; [|left; eauto].
    rewrite andb_true_iff, !Nat.eqb_eq in E. right.
    destruct (get t i x); [|discriminate Hi]. cbn in Hi. injection Hi as _ <- _. split; [|reflexivity].
    now symmetry.
Qed.

Lemma paths_hist_rest asc lf id : forall paths t t',
  flatten_paths (blank sp) t id paths false asc lf = Ok t' ->
  ext t t' /\ length t' = length t /\
  forall i x n k l, get t' i x = Some (n, Some k, l) ->
    (exists n0, get t i x = Some (n0, Some k, l)) \/ (i = N.to_nat id /\ k = wrap 16 asc).
Proof.
  induction paths as [|keys paths IH]; intros t t' H; cbn [flatten_paths] in H.
  - injection H as <-. split; [|split; [reflexivity|]].
    + intros i x j s l H. eauto.
    + intros i x n k l Hi. left. eauto.
  - destruct (rev keys) as [|last rkeys]; [discriminate H|]. cbn [bind fst snd] in H.
    destruct (flatten_set t id last asc lf) as [t1| | |] eqn:E; try discriminate H.
    cbn [bind] in H. apply set_hist in E. destruct E as (A1 & A2 & A3).
    apply IH in H. destruct H as (B1 & B2 & B3).
    split; [eapply ext_trans; eauto|]. split; [congruence|].
    intros i x n k l Hi. destruct (B3 _ _ _ _ _ Hi) as [[n0 Hj]|Hj]; [|now right].
    destruct (A3 _ _ _ _ _ Hj) as [?|?]; auto.
Qed.

Lemma paths_hist asc lf keys last n t t' : (1 <= n)%nat ->
  flatten_paths (blank sp) t 0 (map (fun i => keys ++ [last + N.of_nat i]) (seq 0 n)) true asc lf = Ok t' ->
  exists id, ext t t' /\ (small t -> small t') /\ follow t' 0 keys = Some id /\
  forall i x n k l, get t' i x = Some (n, Some k, l) ->
    (exists n0, get t i x = Some (n0, Some k, l)) \/ (i = id /\ k = wrap 16 asc).
Proof.
  intros Hn H. destruct n as [|n]; [lia|]. cbn [seq map flatten_paths] in H.
  rewrite rev_unit, rev_involutive in H.
  destruct (flatten_walk (blank sp) t 0 keys) as [[tw idw]| | |] eqn:Ew; try discriminate H.
  cbn [bind fst snd] in H.
  destruct (flatten_set tw idw _ asc lf) as [t1| | |] eqn:E; try discriminate H. cbn [bind] in H.
  apply walk_hist in Ew. destruct Ew as (W1 & W2 & W3 & W4). change (N.to_nat 0) with 0%nat in W2.
  apply set_hist in E. destruct E as (A1 & A2 & A3).
  apply paths_hist_rest in H. destruct H as (B1 & B2 & B3).
  assert (He : ext tw t') by (eapply ext_trans; eauto).
  exists (N.to_nat idw). split; [eapply ext_trans; eauto|]. split; [|split].
  - intros Hs. apply (small_ext tw); auto. congruence.
  - eapply follow_ext; eauto.
  - intros i x n0 k l Hi. destruct (B3 _ _ _ _ _ Hi) as [[n1 Hj]|Hj]; [|now right].
    destruct (A3 _ _ _ _ _ Hj) as [[n2 Hk]|Hk]; [|now right].
    left. eapply W4; eauto.
Qed.

Definition coded (m : mode) (c : N * N) (keys : list N) : Prop :=
  exists n pad, ceil_div (fst c) (N.of_nat sp) = N.of_nat n /\
    (n * sp = N.to_nat (fst c) + pad)%nat /\ (pad < sp)%nat /\ (1 <= n)%nat /\
    keys = map (key n pad (snd c)) (seq 0 (n - 1)).

Definition traced (m : mode) (done : list (N * N)) (t : table) : Prop :=
  forall i x n k l, get t i x = Some (n, Some k, l) ->
    exists j c keys, nth_error done j = Some c /\ k = wrap 16 (N.of_nat j) /\
      coded m c keys /\ follow t 0 keys = Some i.

Lemma codings_hist m : forall codings done t t',
  Forall (fun c => 1 <= fst c /\ (m = Release \/ (fst c - 1) / N.of_nat sp * N.of_nat sp < 32)) codings ->
  flatten_codings m (blank sp) t (N.of_nat sp) (N.of_nat (length done)) codings = Ok t' ->
  small t -> traced m done t ->
  small t' /\ traced m (done ++ codings) t'.
Proof.
  induction codings as [|[l v] codings IH]; intros done t t' Hf H Hs Ht.
  - cbn in H. injection H as <-. now rewrite app_nil_r.
  - apply Forall_cons_iff in Hf. destruct Hf as [[Hl Hm] Hf]. cbn [fst snd] in *.
    cbn [flatten_codings fst] in H.
    destruct (gen_explicit m (N.to_nat l) v) as (n & pad & Hn & Hpad & Hps & Hn1 & E1 & E2); [lia| |].
    { destruct Hm as [->|Hm]; [now left|right].
      replace ((l - 1) / N.of_nat sp) with (N.of_nat ((N.to_nat l - 1) / sp)) in Hm; [lia|].
      rewrite Nat2N.inj_div. f_equal. lia. }
    rewrite N2Nat.id in Hn, E1, E2. rewrite E1 in H. cbn [bind] in H. rewrite E2 in H. cbn [bind] in H.
    destruct (flatten_paths (blank sp) t 0 _ true _ _) as [t1| | |] eqn:E; try discriminate H.
    cbn [bind] in H.
    apply paths_hist in E; [|pose proof (Nat.pow_nonzero 2 pad); lia].
    destruct E as (id & P1 & P2 & P3 & P4).
    replace (N.of_nat (length done) + 1) with (N.of_nat (length (done ++ [(l, v)]))) in H
      by (rewrite app_length; simpl; lia).
    replace (done ++ (l, v) :: codings) with ((done ++ [(l, v)]) ++ codings)
      by now rewrite <- app_assoc.
    apply (IH _ t1 t'); auto.
    intros i x n0 k l0 Hi. destruct (P4 _ _ _ _ _ Hi) as [[n1 Hj]|[-> ->]].
    + destruct (Ht _ _ _ _ _ Hj) as (j & c & keys & A1 & A2 & A3 & A4).
      exists j, c, keys. split; [rewrite nth_error_app1; [exact A1|]; apply nth_error_Some; congruence|].
      split; [exact A2|]. split; [exact A3|]. eapply follow_ext; eauto.
    + exists (length done), (l, v). eexists. split; [rewrite nth_error_app2, Nat.sub_diag by lia; reflexivity|].
      split; [reflexivity|]. split; [|exact P3].
      exists n, pad. cbn [fst snd]. auto.
Qed.

(* ------------------------------------------------------------------ *)
(* Reading a matrix that represents the code. *)
Lemma walk_unique cs : prefix_free_codes cs ->
  forall p bits r1 r2, walk cs p bits r1 -> walk cs p bits r2 -> r1 = r2.
Proof.
  intros Hpf p bits r1 r2 H1. revert r2.
  induction H1 as [p b rest k Hk|p b rest r Hn Hw IH|p Hi|p Hi]; intros r2 H2;
    inversion H2; subst; auto; try contradiction.
  - f_equal. apply (Hpf _ _ (p ++ [b]) (p ++ [b])); auto using prefix_refl.
  - exfalso. match goal with H : ~ In _ _ |- _ => apply H end. eapply nth_error_In; eauto.
  - exfalso. apply Hn. eapply nth_error_In; eauto.
Qed.

Lemma walk_to cs p bits q : walk cs p bits (Node q) -> q = p ++ bits.
Proof.
  intros H. remember (Node q) as r eqn:E. revert q E.
  induction H as [p b rest k Hk|p b rest r Hn Hw IH|p Hi|p Hi]; intros q E; try discriminate E.
  - rewrite (IH q E), <- app_assoc. reflexivity.
  - injection E as <-. now rewrite app_nil_r.
Qed.

Definition chunk_of (k : N) : list bool := bits_of sp k.

Lemma chunk_of_val k : k < 2 ^ N.of_nat sp -> val (chunk_of k) = k.
Proof. apply val_bits_of_small. Qed.

Definition says (cs rows : list (list bool)) (t : table) : Prop :=
  forall i p chunk row, nth_error rows i = Some p -> nth_error t i = Some row ->
      length chunk = sp ->
      exists c r, nth_error row (N.to_nat (val chunk)) = Some c /\
                  walk cs p chunk r /\ cell_says rows c r.

Lemma says_get cs rows t i p k c : says cs rows t -> nth_error rows i = Some p ->
  k < 2 ^ N.of_nat sp -> get t i (N.to_nat k) = Some c ->
  exists r, walk cs p (chunk_of k) r /\ cell_says rows c r.
Proof.
  intros Hs Hi Hk Hg. unfold get in Hg. destruct (nth_error t i) as [row|] eqn:Er; [|discriminate Hg].
  destruct (Hs i p (chunk_of k) row Hi Er (bits_of_length _ _)) as (c' & r & Hc & Hw & Hcs).
  rewrite chunk_of_val in Hc by exact Hk.
  assert (E : Some c = Some c') by (rewrite <- Hg; exact Hc). injection E as <-. eauto.
Qed.

Lemma follow_rows cs rows t : says cs rows t -> forall keys i p j,
  Forall (fun k => k < 2 ^ N.of_nat sp) keys ->
  nth_error rows i = Some p -> follow t i keys = Some j ->
  nth_error rows j = Some (p ++ concat (map chunk_of keys)).
Proof.
  intros Hs. induction keys as [|k keys IH]; intros i p j Hf Hi Hj; cbn [follow map concat] in *.
  - injection Hj as <-. now rewrite app_nil_r.
  - apply Forall_cons_iff in Hf. destruct Hf as [Hk Hf].
    destruct (get t i (N.to_nat k)) as [[[[j0|] s] l]|] eqn:E; try discriminate Hj.
    destruct (says_get cs rows t i p k _ Hs Hi Hk E) as (r & Hw & Hc).
    destruct r as [k0 u|q|]; cbn in Hc; try discriminate Hc.
    destruct Hc as (j1 & Hj1 & Hc). apply walk_to in Hw. subst q.
    assert (j1 = N.to_nat j0) by (injection Hc as -> _ _; now rewrite Nat2N.id). subst j1.
    rewrite app_assoc. eapply IH; eauto.
Qed.

Lemma represents_kept m codings t :
  Forall (fun c => 1 <= fst c /\ snd c < 2 ^ fst c /\
                   (m = Release \/ (fst c - 1) / N.of_nat sp * N.of_nat sp < 32)) codings ->
  flatten_codings m (blank sp) [blank sp] (N.of_nat sp) 0 codings = Ok t ->
  prefix_free_codes (map code_of codings) ->
  represents sp (map code_of codings) t ->
  Forall kept codings /\
  (forall nodes, NoDup nodes -> Forall (chunk_node sp (map code_of codings)) nodes ->
     (length nodes <= 256)%nat).
Proof.
  intros Hf H Hpf (rows & Hlen & Hroot & Hnd & Hin & Hsh & Hs).
  change (length rows = @length (list cell) t) in Hlen.
  set (cs := map code_of codings) in *.
  assert (Hinit : small t /\ traced m ([] ++ codings) t).
  { apply (codings_hist m codings [] [blank sp] t); auto.
    - revert Hf. apply Forall_impl. tauto.
    - left. simpl. lia.
    - intros i x n k l Hi. exfalso.
      unfold get in Hi. destruct i as [|[|i]]; cbn [nth_error] in Hi; try discriminate Hi.
      apply (nth_blank_cell sp) in Hi. discriminate Hi. }
  destruct Hinit as [Hsmall Htr]. cbn [app] in Htr.
  change (says cs rows t) in Hs.
  split.
  - (* where each code's symbol is *)
    assert (Hplace : forall k0 l v, nth_error codings k0 = Some (l, v) ->
      exists j c keys i chs lastc n pad,
        nth_error codings j = Some c /\ N.of_nat k0 = wrap 16 (N.of_nat j) /\
        coded m c keys /\ follow t 0 keys = Some i /\
        nth_error rows i = Some (concat chs) /\
        ceil_div l (N.of_nat sp) = N.of_nat n /\ (n * sp = N.to_nat l + pad)%nat /\
        (pad < sp)%nat /\ (1 <= n)%nat /\
        Forall (fun ch => length ch = sp) chs /\ length chs = (n - 1)%nat /\
        map val chs = map (tkey n pad v) (seq 0 (n - 1)) /\ lastc = n).
    { intros k0 l v Hk0.
      assert (Hc : In (l, v) codings) by (eapply nth_error_In; eauto).
      rewrite Forall_forall in Hf. destruct (Hf _ Hc) as (Hl & Hv & Hm). cbn [fst snd] in *.
      destruct (ceil_div_spec sp sp_pos (N.to_nat l)) as (n & pad & Hn & Hpad & Hps & Hn1); [lia|].
      rewrite N2Nat.id in Hn.
      destruct (true_chunks (N.to_nat l) v n pad) as (chs & lastc & H1 & H2 & H3 & H4 & H5 & H6 & H7);
        try assumption; [now rewrite N2Nat.id|].
      set (b := bits_of (N.to_nat l) v) in *.
      assert (Hb : nth_error cs k0 = Some b).
      { unfold cs. rewrite nth_error_map, Hk0. reflexivity. }
      assert (Hbl : length b = N.to_nat l) by apply bits_of_length.
      assert (Hcl : length (concat chs) = (length chs * sp)%nat) by now apply clen.
      assert (Hlt : (length (concat chs) < length b)%nat) by (rewrite H1, app_length; lia).
      assert (Hnode : chunk_node sp cs (concat chs)).
      { right. split; [|eauto]. exists b. split; [eapply nth_error_In; eauto|].
        split; [exists lastc; exact H1|exact Hlt]. }
      apply Hin in Hnode. apply In_nth_error in Hnode. destruct Hnode as [i Hi].
      set (chunk := lastc ++ repeat false pad).
      assert (Hchunk : length chunk = sp) by (unfold chunk; rewrite app_length, repeat_length; exact H4).
      destruct (nth_error t i) as [row|] eqn:Er.
      2:{ apply nth_error_None in Er.
          assert (Hne : nth_error rows i <> None) by congruence. apply nth_error_Some in Hne.  lia. }
      destruct (Hs i (concat chs) chunk row Hi Er Hchunk) as (c & r & Hg & Hw & Hcs).
      assert (Hw' : walk cs (concat chs) chunk (Symbol k0 (length (concat chs) + length chunk - length b))).
      { apply (walk_sym_of sp sp_pos _ no_rows); auto.
        - exists (repeat false pad). unfold chunk. now rewrite H1, <- app_assoc.
        - exists lastc. exact H1. }
      rewrite (walk_unique cs Hpf _ _ _ _ Hw Hw') in Hcs. cbn in Hcs. subst c.
      assert (Hget : get t i (N.to_nat (val chunk)) =
                Some (None, Some (N.of_nat k0), N.of_nat (length (concat chs) + length chunk - length b))).
      { unfold get. rewrite Er. exact Hg. }
      destruct (Htr _ _ _ _ _ Hget) as (j & c & keys & A1 & A2 & A3 & A4).
      exists j, c, keys, i, chs, n, n, pad. tauto. }
    apply Forall_forall. intros [l v] Hc. apply In_nth_error in Hc. destruct Hc as [k0 Hk0].
    destruct (Hplace k0 l v Hk0) as
      (j & c & keys & i & chs & _n & n & pad & A1 & A2 & A3 & A4 & Hi & Hn & Hpad & Hps & Hn1 & B2 & B3 & B6 & _).
    assert (Hj : j = k0).
    { destruct c as [l' v']. destruct (Hplace j l' v' A1) as (j' & _c & _k & _i & _ch & _l & _n' & _p & _ & A2' & _).
      assert (Hlt : N.of_nat j < 65536).
      { rewrite A2'. unfold wrap. change 65536 with (2 ^ 16). apply N.mod_lt. discriminate. }
      unfold wrap in A2. change (2 ^ 16) with 65536 in A2. rewrite N.mod_small in A2 by exact Hlt. lia. }
    subst j. rewrite Hk0 in A1. injection A1 as <-.
    destruct A3 as (n' & pad' & C1 & C2 & C3 & C4 & C5). cbn [fst snd] in *.
    assert (n' = n) by lia. subst n'. assert (pad' = pad) by lia. subst pad'.
    assert (Hkeys : Forall (fun k => k < 2 ^ N.of_nat sp) keys).
    { rewrite C5. apply Forall_forall. intros k Hk. apply in_map_iff in Hk. destruct Hk as (x & <- & _).
      apply N.mod_lt. apply N.pow_nonzero; lia. }
    pose proof (follow_rows cs rows t Hs keys 0%nat [] i Hkeys Hroot A4) as Hfr. cbn [app] in Hfr.
    rewrite Hi in Hfr. injection Hfr as Hfr.
    assert (Hval : map val chs = keys).
    { assert (Hll : length chs = length keys) by (rewrite C5, map_length, seq_length; exact B3).
      clear - Hkeys B2 Hfr Hll sp_pos. revert chs B2 Hfr Hll.
      induction keys as [|k keys IH]; intros [|ch chs] B2 Hfr Hll; try discriminate Hll; [reflexivity|].
      apply Forall_cons_iff in Hkeys. destruct Hkeys as [Hk Hks].
      apply Forall_cons_iff in B2. destruct B2 as [Hch Hchs].
      cbn [map concat] in *. apply app_inj_len in Hfr.
      - destruct Hfr as [-> Hfr]. f_equal; [now apply chunk_of_val|].
        apply IH; auto; simpl in Hll; lia.
      - unfold chunk_of. now rewrite bits_of_length. }
    rewrite B6, C5 in Hval.
    intros n' pad' x D1 D2 D3. cbn [fst snd] in *.
    assert (n' = n) by lia. subst n'. assert (pad' = pad) by lia. subst pad'.
    destruct (Nat.eq_dec x (n - 1)) as [->|Hne]; [now apply last_key|].
    assert (Hx : In x (seq 0 (n - 1))) by (apply in_seq; lia).
    clear - Hval Hx. induction (seq 0 (n - 1)) as [|y s IH]; [destruct Hx|].
    cbn [map] in Hval. injection Hval as E1 E2. destruct Hx as [->|Hx]; auto.
  - intros nodes Hn Hfn.
    assert (Hle : (length nodes <= length rows)%nat).
    { apply NoDup_incl_length; [exact Hn|]. intros p Hp. rewrite Forall_forall in Hfn. apply Hin. auto. }
    destruct Hsmall as [Hsm|(i & x & s & l & Hg)]; [lia|]. exfalso.
    destruct (nth_error rows i) as [p|] eqn:Ei.
    2:{ apply nth_error_None in Ei. apply get_lt in Hg. lia. }
    assert (Hx : N.of_nat x < 2 ^ N.of_nat sp).
    { unfold get in Hg. destruct (nth_error t i) as [row|] eqn:Er; [|discriminate Hg].
      rewrite Forall_forall in Hsh. assert (Hrow : length row = (2 ^ sp)%nat).
      { apply Hsh. eapply nth_error_In; eauto. }
      assert (x < length row)%nat by (apply nth_error_Some; congruence).
      replace (2 ^ N.of_nat sp) with (N.of_nat (2 ^ sp)); [lia|]. now rewrite Nat2N.inj_pow. }
    rewrite <- (Nat2N.id x) in Hg.
    destruct (says_get cs rows t i p (N.of_nat x) _ Hs Ei Hx Hg) as (r & Hw & Hc).
    destruct r as [k0 u|q|]; cbn in Hc; try discriminate Hc.
    destruct Hc as (j1 & Hj1 & Hc). assert (j1 = 0%nat) by (injection Hc as Hc _ _; lia). subst j1.
    rewrite Hroot in Hj1. injection Hj1 as <-. apply walk_to in Hw.
    symmetry in Hw. apply app_eq_nil in Hw. destruct Hw as [_ Hw].
    apply (f_equal (@length bool)) in Hw. unfold chunk_of in Hw. rewrite bits_of_length in Hw.
    simpl in Hw. lia.
Qed.

(* ------------------------------------------------------------------ *)
(* A tree with at most 256 chunk nodes has few codes. *)
Fixpoint all_bits (n : nat) : list (list bool) :=
  match n with
  | O => [[]]
  | S n' => map (cons false) (all_bits n') ++ map (cons true) (all_bits n')
  end.

Lemma all_bits_in : forall l, In l (all_bits (length l)).
Proof.
  induction l as [|b l IH]; [now left|]. cbn [length all_bits]. apply in_app_iff.
  destruct b; [right|left]; now apply in_map.
Qed.

Lemma all_bits_length n : length (all_bits n) = (2 ^ n)%nat.
Proof. induction n; [reflexivity|]. cbn [all_bits]. rewrite app_length, !map_length, IHn. simpl. lia. Qed.

Lemma prod_length {A B} (f : A -> list B) k : forall l,
  (forall x, length (f x) = k) -> length (flat_map f l) = (length l * k)%nat.
Proof. induction l as [|x l IH]; intros H; [reflexivity|]. cbn [flat_map length]. rewrite app_length, H, IH by exact H. lia. Qed.

Lemma few_codes codings :
  Forall (fun c => 1 <= fst c /\ snd c < 2 ^ fst c) codings ->
  prefix_free_codes (map code_of codings) ->
  (forall nodes, NoDup nodes -> Forall (chunk_node sp (map code_of codings)) nodes ->
     (length nodes <= 256)%nat) ->
  (length codings <= 256 * 2 ^ sp)%nat.
Proof.
  intros Hf Hpf Hb. set (cs := map code_of codings) in *.
  assert (Hsplit : forall c, In c cs -> exists p ch pad,
            c ++ repeat false pad = p ++ ch /\ length ch = sp /\ chunk_node sp cs p).
  { intros c Hc. pose proof Hc as Hc0. unfold cs in Hc. apply in_map_iff in Hc.
    destruct Hc as ([l v] & <- & Hc). rewrite Forall_forall in Hf. destruct (Hf _ Hc) as [Hl Hv].
    cbn [fst snd] in *.
    destruct (ceil_div_spec sp sp_pos (N.to_nat l)) as (n & pad & Hn & Hpad & Hps & Hn1); [lia|].
    destruct (true_chunks (N.to_nat l) v n pad) as (chs & lastc & H1 & H2 & H3 & H4 & H5 & _);
      try assumption; [now rewrite N2Nat.id|].
    exists (concat chs), (lastc ++ repeat false pad), pad.
    unfold code_of in *. cbn [fst snd] in *. split; [now rewrite H1, <- app_assoc|].
    split; [rewrite app_length, repeat_length; exact H4|].
    assert (Hcl : length (concat chs) = (length chs * sp)%nat) by now apply clen.
    right. split; [|eauto]. exists (bits_of (N.to_nat l) v). split; [exact Hc0|].
    split; [exists lastc; exact H1|]. rewrite H1, app_length. lia. }
  (* choose the nodes and the padded codes *)
  assert (Hlist : forall ds, (forall c, In c ds -> In c cs) ->
    exists nodes padded, NoDup nodes /\ Forall (chunk_node sp cs) nodes /\
      Forall2 (fun c x => prefix c x) ds padded /\
      (forall x, In x padded -> In x (flat_map (fun p => map (app p) (all_bits sp)) nodes))).
  { induction ds as [|c ds IH]; intros Hd.
    - exists [], []. repeat constructor. intros x [].
    - destruct IH as (nodes & padded & N1 & N2 & N3 & N4); [intros; apply Hd; now right|].
      destruct (Hsplit c) as (p & ch & pad & E & Hch & Hp); [apply Hd; now left|].
      assert (Hx : In (p ++ ch) (flat_map (fun p => map (app p) (all_bits sp)) [p])).
      { cbn. rewrite app_nil_r. apply in_map. rewrite <- Hch. apply all_bits_in. }
      destruct (in_dec (list_eq_dec Bool.bool_dec) p nodes) as [Hin|Hnin].
      + exists nodes, ((p ++ ch) :: padded). split; [exact N1|]. split; [exact N2|]. split.
        { constructor; [|exact N3]. exists (repeat false pad). now symmetry. }
        intros x [<-|Hi]; [|auto]. apply in_flat_map. exists p. split; [exact Hin|].
        cbn in Hx. now rewrite app_nil_r in Hx.
      + exists (p :: nodes), ((p ++ ch) :: padded). split; [now constructor|]. split; [now constructor|].
        split.
        { constructor; [|exact N3]. exists (repeat false pad). now symmetry. }
        cbn [flat_map]. intros x [<-|Hi]; apply in_app_iff; [left|right; auto].
        cbn in Hx. now rewrite app_nil_r in Hx. }
  destruct (Hlist cs (fun c H => H)) as (nodes & padded & N1 & N2 & N3 & N4).
  specialize (Hb nodes N1 N2).
  assert (Hlen : length cs = length padded).
  { clear - N3. induction N3; simpl; congruence. }
  assert (Hnd : NoDup padded).
  { apply NoDup_nth_error. intros i j Hi Hij.
    assert (Hget : forall i x, nth_error padded i = Some x -> exists c, nth_error cs i = Some c /\ prefix c x).
    { clear - N3. induction N3 as [|c x cs xs H1 H2 IH]; intros [|i] y Hy; try discriminate Hy; cbn in *.
      - injection Hy as <-. eauto.
      - auto. }
    destruct (nth_error padded i) as [x|] eqn:Ei; [|apply nth_error_None in Ei; lia].
    symmetry in Hij.
    destruct (Hget i x Ei) as (c & Hc & Hp). destruct (Hget j x Hij) as (d & Hd & Hq).
    destruct (Nat.le_ge_cases (length c) (length d)) as [Hle|Hle].
    - apply (Hpf i j c d Hc Hd). eapply prefix_total; eauto.
    - symmetry. apply (Hpf j i d c Hd Hc). eapply prefix_total; eauto. }
  assert (Hincl : (length padded <= length (flat_map (fun p => map (app p) (all_bits sp)) nodes))%nat).
  { apply NoDup_incl_length; [exact Hnd|exact N4]. }
  rewrite (prod_length _ (2 ^ sp)) in Hincl by (intros x; rewrite map_length; apply all_bits_length).
  assert (length cs = length codings) by apply map_length. nia.
Qed.

Lemma top_chunk P Q R S b : 0 < Q -> 0 < S -> P = Q * R -> 0 < P -> b < Q * S ->
  (b mod P) / Q mod S = b / Q mod S -> b < P.
Proof.
  intros HQ HS HP HP0 Hb H.
  assert (Hq : b / Q < S) by (apply N.div_lt_upper_bound; [lia|exact Hb]).
  rewrite (N.mod_small (b / Q)) in H by exact Hq.
  assert (Hm : b mod P < P) by (apply N.mod_lt; lia).
  assert (Hq2 : (b mod P) / Q < R) by (apply N.div_lt_upper_bound; [lia|now rewrite <- HP]).
  assert (Hq3 : (b mod P) / Q mod S <= (b mod P) / Q) by (apply N.mod_le; lia).
  destruct (N.lt_ge_cases b P) as [?|Hge]; [assumption|]. exfalso.
  assert (Hr : R <= b / Q) by (apply N.div_le_lower_bound; [lia|now rewrite <- HP]).
  clear - H Hq2 Hq3 Hr. lia.
Qed.

Lemma top_chunk_back b sh w : b < 2 ^ sh * 2 ^ w -> sh <= 32 ->
  (b mod 2 ^ 32) / 2 ^ sh mod 2 ^ w = b / 2 ^ sh mod 2 ^ w -> b < 2 ^ 32.
Proof.
  intros Hb Hs H.
  assert (E : 2 ^ 32 = 2 ^ sh * 2 ^ (32 - sh)).
  { rewrite <- N.pow_add_r. replace (sh + (32 - sh)) with 32 by (clear - Hs; lia). reflexivity. }
  exact (top_chunk _ _ _ _ b (pow2_pos _) (pow2_pos _) E (pow2_pos _) Hb H).
Qed.

(* A code whose last chunk starts below bit 32 keeps all its bits if it still fits in the
   u32 after padding. *)
Lemma kept_iff l v : 1 <= l -> v < 2 ^ l ->
  (l - 1) / N.of_nat sp * N.of_nat sp < 32 ->
  (kept (l, v) <-> v * 2 ^ (ceil_div l (N.of_nat sp) * N.of_nat sp - l) < 2 ^ 32).
Proof.
  intros Hl Hv Hs.
  destruct (ceil_div_spec sp sp_pos (N.to_nat l)) as (n & pad & Hn & Hpad & Hps & Hn1); [lia|].
  rewrite N2Nat.id in Hn. rewrite Hn.
  replace (N.of_nat n * N.of_nat sp - l) with (N.of_nat pad) by (clear - Hpad; lia).
  assert (Hsum : N.of_nat (n - 1) * N.of_nat sp + N.of_nat sp = l + N.of_nat pad).
  { assert (E : ((n - 1) * sp + sp = n * sp)%nat) by (destruct n; [lia|]; simpl; rewrite Nat.sub_0_r; lia).
    clear - E Hpad. lia. }
  assert (Hdiv : (l - 1) / N.of_nat sp = N.of_nat (n - 1)).
  { symmetry. clear - Hsum Hps Hl.
    apply (N.div_unique (l - 1) (N.of_nat sp) (N.of_nat (n - 1)) (N.of_nat (sp - 1 - pad))); lia. }
  rewrite Hdiv in Hs.
  assert (Hkey : forall i, (i < n)%nat -> key n pad v i =
     N.shiftr ((v * 2 ^ N.of_nat pad) mod 2 ^ 32) (N.of_nat (n - 1 - i) * N.of_nat sp) mod 2 ^ N.of_nat sp).
  { intros i Hi. unfold key. rewrite N.shiftl_mul_pow2. rewrite (N.mod_small _ 32); [reflexivity|].
    assert ((n - 1 - i) * sp <= (n - 1) * sp)%nat by (apply Nat.mul_le_mono_r; clear; lia).
    clear - Hs H. lia. }
  split.
  - intros Hk. specialize (Hk n pad 0%nat). cbn [fst snd] in Hk.
    specialize (Hk Hn ltac:(lia) ltac:(lia)). rewrite Hkey in Hk by lia. unfold tkey in Hk.
    rewrite Nat.sub_0_r in Hk. rewrite !N.shiftr_div_pow2 in Hk.
    apply top_chunk_back in Hk; [exact Hk| |clear - Hs; lia].
    rewrite <- N.pow_add_r, Hsum, N.pow_add_r. apply N.mul_lt_mono_pos_r; [apply pow2_pos|exact Hv].
  - intros Hb n' pad' i D1 D2 D3. cbn [fst snd] in *.
    assert (E1 : n' = n) by (clear - Hn D1; lia). subst n'.
    assert (E2 : pad' = pad) by (clear - Hpad D2; lia). subst pad'.
    rewrite Hkey by exact D3. unfold tkey. rewrite (N.mod_small _ (2 ^ 32)) by exact Hb. reflexivity.
Qed.
End Iff.

(* ------------------------------------------------------------------ *)
Lemma flatten_iff m s codings :
  let sp := N.to_nat (speed_bits s) in
  let cs := map (fun c => bits_of (N.to_nat (fst c)) (snd c)) codings in
  Forall (fun c => snd c < 2 ^ fst c) codings ->
  prefix_free_codes cs ->
  ((exists t, flatten m codings s = Ok t /\ represents sp cs t) <->
   Forall (fun c => 1 <= fst c /\ (m = Release \/ (fst c - 1) / speed_bits s * speed_bits s < 32) /\ kept sp c) codings /\
   (forall nodes, NoDup nodes -> Forall (chunk_node sp cs) nodes -> (length nodes <= 256)%nat)).
Proof.
  intros sp cs Hv Hpf.
  assert (Hsp : (0 < sp)%nat) by (unfold sp; destruct s; simpl; lia).
  assert (Hsp5 : (sp <= 5)%nat) by (unfold sp; destruct s; simpl; lia).
  assert (Hspn : N.of_nat sp = speed_bits s) by (unfold sp; now rewrite N2Nat.id).
  assert (Hfl : flatten m codings s = flatten_codings m (blank sp) [blank sp] (N.of_nat sp) 0 codings).
  { unfold flatten. rewrite <- Hspn. reflexivity. }
  rewrite Forall_forall in Hv. split.
  - intros (t & Ht & Hr).
    assert (Hrel : forall c, In c codings ->
              1 <= fst c /\ (m = Release \/ (fst c - 1) / N.of_nat sp * N.of_nat sp < 32)).
    { intros c Hc. destruct (flatten_panic m s codings) as [[_ H]|[H _]]; [|congruence].
      destruct (H c Hc) as [H1 H2]. rewrite <- Hspn in H2. split; [lia|].
      destruct m; [right; auto|now left]. }
    rewrite Hfl in Ht.
    destruct (represents_kept sp Hsp Hsp5 m codings t) as [H1 H2]; auto.
    + apply Forall_forall. intros c Hc. destruct (Hrel c Hc). auto.
    + split; [|exact H2]. rewrite Forall_forall in H1 |- *. intros c Hc. rewrite <- Hspn.
      destruct (Hrel c Hc). auto.
  - intros [Hk Hb]. rewrite Forall_forall in Hk.
    assert (Hl : forall c, In c codings -> 1 <= fst c) by (intros c Hc; now destruct (Hk c Hc)).
    assert (Hfew : (length codings <= 256 * 2 ^ sp)%nat).
    { apply few_codes; auto. apply Forall_forall. intros c Hc. auto. }
    assert (Hpow : (2 ^ sp <= 2 ^ 5)%nat) by (apply Nat.pow_le_mono_r; lia).
    change (2 ^ 5)%nat with 32%nat in Hpow.
    destruct (flatten_codings_ok sp Hsp (chunk_node sp cs) Hb m codings [] [[]] [blank sp])
      as (rows & t & E & HI).
    + lia.
    + apply Forall_forall. intros c Hc. split; [auto|]. split; [auto|].
      destruct (Hk c Hc) as (_ & Hm & Hkc).
      apply kept_good; auto.
      * specialize (Hl c Hc). lia.
      * rewrite N2Nat.id. auto.
      * destruct Hm as [->|Hm]; [now left|right]. rewrite <- Hspn in Hm.
        replace ((fst c - 1) / N.of_nat sp) with (N.of_nat ((N.to_nat (fst c) - 1) / sp)) in Hm; [lia|].
        rewrite Nat2N.inj_div. f_equal. lia.
      * rewrite N2Nat.id. destruct c; exact Hkc.
    + cbn [length]. lia.
    + apply Inv_init; auto. now left.
    + intros q Hq Ha. right. auto.
    + exists t. split; [rewrite Hfl; exact E|]. eapply Inv_represents; eauto.
Qed.
