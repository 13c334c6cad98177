(* When does `flatten` panic? (C51) *)
From Verif Require Import Base HuffTables HuffModel HuffFlat.

Section P.
Variable sp : nat.
Hypothesis sp_pos : (0 < sp)%nat.
Hypothesis sp_le : (sp <= 5)%nat.

Record Safe (t : list (list cell)) : Prop := {
  S_shape : shape sp t;
  S_pos : (0 < length t)%nat;
  S_next : forall i k j s l, get t i k = Some (Some j, s, l) -> (N.to_nat j < length t)%nat
}.

Lemma nth_blank_cell k c : nth_error (blank sp) k = Some c -> c = (None, None, 0).
Proof. intros H. apply nth_error_In in H. unfold blank, blank_transition in H. now apply repeat_spec in H. Qed.

Lemma walk_safe : forall keys t id,
  Safe t -> (id < length t)%nat -> Forall (fun k => (N.to_nat k < 2 ^ sp)%nat) keys ->
  exists t' id', flatten_walk (blank sp) t (N.of_nat id) keys = Ok (t', N.of_nat id') /\
    Safe t' /\ (id' < length t')%nat.
Proof.
  induction keys as [|key keys IH]; intros t id HS Hid Hf.
  - exists t, id. split; [reflexivity|]. auto.
  - apply Forall_cons_iff in Hf. destruct Hf as [Hk Hf].
    cbn [flatten_walk]. rewrite Nat2N.id.
    destruct (get_shape sp sp_pos t id (N.to_nat key) (S_shape _ HS) Hid Hk) as [c Hc].
    pose proof Hc as Hc0. unfold get in Hc0.
    destruct (nth_error t id) as [row|] eqn:Er; [|discriminate Hc0]. rewrite Hc0.
    destruct c as [[[j|] s] l].
    + assert (Hj := S_next _ HS _ _ _ _ _ Hc).
      destruct (IH t (N.to_nat j) HS Hj Hf) as (t' & id' & E & R).
      rewrite N2Nat.id in E. eauto.
    + set (nid := wrap 8 (N.of_nat (length t))).
      assert (Hn : nid <= N.of_nat (length t)).
      { unfold nid, wrap. apply N.mod_le. discriminate. }
      set (t1 := update (t ++ [blank sp]) id _).
      assert (HS1 : Safe t1).
      { change t1 with (put (t ++ [blank sp]) id (N.to_nat key)
                            (fun c => (Some nid, snd (fst c), snd c))).
        constructor.
        - apply shape_put. apply Forall_app. split; [apply HS|].
          constructor; [apply blank_length | constructor].
        - rewrite put_length, app_length; simpl; lia.
        - intros i k j s' l' Hg. rewrite put_length, app_length. simpl.
          rewrite get_put, (get_app sp sp_pos) in Hg.
          destruct ((id =? i) && (N.to_nat key =? k))%nat.
          + destruct (if (i =? length t)%nat then _ else _); [|discriminate Hg].
            cbn [option_map] in Hg. injection Hg as <- _ _. lia.
          + destruct (i =? length t)%nat.
            * apply nth_blank_cell in Hg. discriminate Hg.
            * apply (S_next _ HS) in Hg. lia. }
      assert (Hl1 : length t1 = S (length t)).
      { unfold t1. rewrite update_length, app_length. simpl. lia. }
      destruct (IH t1 (N.to_nat nid) HS1) as (t' & id' & E & R); [lia|exact Hf|].
      rewrite N2Nat.id in E. eauto.
Qed.

Lemma coding_chunks_safe m bits n : forall is,
  Forall (fun i => (i < n)%nat) is ->
  (m = Release \/ Forall (fun i => (n - 1 - i) * sp < 32)%nat is) ->
  coding_chunks m bits (N.of_nat n) (N.of_nat sp) (2 ^ N.of_nat sp - 1) is =
  Ok (map (fun i => N.shiftr bits ((N.of_nat (n - 1 - i) * N.of_nat sp) mod 32) mod 2 ^ N.of_nat sp) is).
Proof.
  induction is as [|i is IH]; intros Hf Hm; [reflexivity|].
  apply Forall_cons_iff in Hf. destruct Hf as [Hi Hf].
  cbn [coding_chunks map]. rewrite u_sub_ok by lia. cbn [bind].
  replace (N.of_nat n - (N.of_nat i + 1)) with (N.of_nat (n - 1 - i)) by lia.
  assert (E : u_shr m 32 bits (N.of_nat (n - 1 - i) * N.of_nat sp) =
              Ok (N.shiftr bits ((N.of_nat (n - 1 - i) * N.of_nat sp) mod 32)) :> outcome huff_error N).
  { unfold u_shr. destruct (N.ltb_spec (N.of_nat (n - 1 - i) * N.of_nat sp) 32) as [Hl|Hg].
    - now rewrite N.mod_small.
    - destruct Hm as [->|Hm]; [reflexivity|]. apply Forall_cons_iff in Hm. lia. }
  rewrite E. cbn [bind].
  rewrite IH; [|exact Hf|].
  - cbn [bind]. now rewrite land_ones_mod.
  - destruct Hm as [->|Hm]; [now left|right]. apply Forall_cons_iff in Hm. tauto.
Qed.

(* The first shift is the largest one. *)
Lemma coding_chunks_panic bits n : (32 <= n * sp)%nat ->
  coding_chunks Debug bits (N.of_nat (S n)) (N.of_nat sp) (2 ^ N.of_nat sp - 1) (seq 0 (S n)) = Panic.
Proof.
  intros H. cbn [seq coding_chunks]. rewrite u_sub_ok by lia. cbn [bind].
  unfold u_shr. destruct (N.ltb_spec ((N.of_nat (S n) - (N.of_nat 0 + 1)) * N.of_nat sp) 32); [nia|].
  reflexivity.
Qed.

Lemma gen_paths_safe m l v : (1 <= l)%nat ->
  (m = Release \/ (l - 1) / sp * sp < 32)%nat ->
  exists keys last pad,
    u_sub m 64 (ceil_div (N.of_nat l) (N.of_nat sp) * N.of_nat sp) (N.of_nat l)
      = Ok (N.of_nat pad) :> outcome huff_error N /\
    generate_coding_paths m (N.of_nat l, v) (N.of_nat sp) =
      Ok (map (fun i => keys ++ [last + N.of_nat i]) (seq 0 (2 ^ pad))) /\
    Forall (fun k => (N.to_nat k < 2 ^ sp)%nat) keys /\
    (N.to_nat last + 2 ^ pad <= 2 ^ sp)%nat.
Proof.
  intros Hl Hm.
  destruct (ceil_div_spec sp sp_pos l Hl) as (n & pad & Hn & Hpad & Hps & Hn1).
  assert (Hpow : (2 ^ sp = 2 ^ pad * 2 ^ (sp - pad))%nat).
  { rewrite <- Nat.pow_add_r. f_equal. lia. }
  exists (map (fun i => N.shiftr (N.shiftl v (N.of_nat pad) mod 2 ^ 32)
                         ((N.of_nat (n - 1 - i) * N.of_nat sp) mod 32) mod 2 ^ N.of_nat sp)
              (seq 0 (n - 1))).
  set (bits := N.shiftl v (N.of_nat pad) mod 2 ^ 32).
  exists (bits mod 2 ^ N.of_nat sp), pad.
  assert (Hsub : u_sub m 64 (ceil_div (N.of_nat l) (N.of_nat sp) * N.of_nat sp) (N.of_nat l)
      = Ok (N.of_nat pad) :> outcome huff_error N).
  { rewrite Hn, u_sub_ok by nia. f_equal. nia. }
  split; [exact Hsub|].
  assert (Hdiv : ((l - 1) / sp = n - 1)%nat).
  { symmetry. apply (Nat.div_unique (l - 1) sp (n - 1) (sp - 1 - pad)); [lia|]. nia. }
  split; [|split].
  - unfold generate_coding_paths. cbn [fst snd]. rewrite Hsub. cbn [bind].
    assert (Hshl : u_shl m 32 v (N.of_nat pad) = Ok bits :> outcome huff_error N).
    { unfold u_shl. destruct (N.ltb_spec (N.of_nat pad) 32); [reflexivity|lia]. }
    rewrite Hshl. cbn [bind]. rewrite Hn, Nat2N.id.
    rewrite coding_chunks_safe.
    + cbn [bind].
      assert (Hseq : seq 0 n = (seq 0 (n - 1) ++ [(n - 1)%nat])%list).
      { replace n with (n - 1 + 1)%nat at 1 by lia. now rewrite seq_app. }
      rewrite Hseq, map_app, rev_app_distr. cbn [map rev app]. rewrite rev_involutive.
      replace (n - 1 - (n - 1))%nat with 0%nat by lia.
      change (N.of_nat 0 * N.of_nat sp) with 0. change (0 mod 32) with 0.
      rewrite N.shiftr_0_r.
      rewrite N2Nat.inj_pow, Nat2N.id. reflexivity.
    + apply Forall_forall. intros i Hi. apply in_seq in Hi. lia.
    + destruct Hm as [->|Hm]; [now left|right]. rewrite Hdiv in Hm.
      apply Forall_forall. intros i Hi. nia.
  - apply Forall_forall. intros k Hk. apply in_map_iff in Hk. destruct Hk as (i & <- & _).
    assert (H : forall x, x mod 2 ^ N.of_nat sp < 2 ^ N.of_nat sp).
    { intros x. apply N.mod_lt. pose proof (pow2_pos (N.of_nat sp)). lia. }
    match goal with |- (N.to_nat (?x mod _) < _)%nat => specialize (H x) end.
    replace (2 ^ sp)%nat with (N.to_nat (2 ^ N.of_nat sp)) by now rewrite N2Nat.inj_pow, Nat2N.id.
    lia.
  - (* the low [pad] bits of the last chunk are zero *)
    assert (Hmul : bits mod 2 ^ N.of_nat sp =
                   2 ^ N.of_nat pad * ((v mod 2 ^ (32 - N.of_nat pad)) mod 2 ^ N.of_nat (sp - pad))).
    { unfold bits. rewrite N.shiftl_mul_pow2.
      replace 32 with (32 - N.of_nat pad + N.of_nat pad) at 1 by lia.
      rewrite N.pow_add_r, N.mul_mod_distr_r
        by (pose proof (pow2_pos (N.of_nat pad)); pose proof (pow2_pos (32 - N.of_nat pad)); lia).
      replace (N.of_nat sp) with (N.of_nat (sp - pad) + N.of_nat pad) by lia.
      rewrite N.pow_add_r, N.mul_mod_distr_r
        by (pose proof (pow2_pos (N.of_nat pad)); pose proof (pow2_pos (N.of_nat (sp - pad))); lia).
      apply N.mul_comm. }
    rewrite Hmul. set (x := _ mod 2 ^ N.of_nat (sp - pad)).
    assert (Hx : x < 2 ^ N.of_nat (sp - pad)).
    { apply N.mod_lt. pose proof (pow2_pos (N.of_nat (sp - pad))). lia. }
    assert (Hx' : (N.to_nat x < 2 ^ (sp - pad))%nat).
    { replace (2 ^ (sp - pad))%nat with (N.to_nat (2 ^ N.of_nat (sp - pad)))
        by now rewrite N2Nat.inj_pow, Nat2N.id. lia. }
    rewrite N2Nat.inj_mul, N2Nat.inj_pow, Nat2N.id. change (N.to_nat 2) with 2%nat.
    rewrite Hpow. clearbody x. clear - Hx'. revert Hx'.
    generalize (2 ^ (sp - pad))%nat, (2 ^ pad)%nat, (N.to_nat x). intros a b y H. nia.
Qed.

Lemma paths_safe t id keys last pad asc lf :
  Safe t -> (id < length t)%nat -> Forall (fun k => (N.to_nat k < 2 ^ sp)%nat) keys ->
  (N.to_nat last + 2 ^ pad <= 2 ^ sp)%nat ->
  exists t', flatten_paths (blank sp) t (N.of_nat id)
    (map (fun i => keys ++ [last + N.of_nat i]) (seq 0 (2 ^ pad))) true asc lf = Ok t' /\ Safe t'.
Proof.
  intros HS Hid Hk Hlast.
  destruct (walk_safe keys t id HS Hid Hk) as (tw & idw & Ew & HSw & Hidw).
  destruct (put_vals sp sp_pos keys last (2 ^ pad) 0 tw idw asc lf) as (t' & E & Hsh & Hlen & Hget);
    auto; [apply HSw|lia|].
  exists t'. split.
  - assert (Hp : (1 <= 2 ^ pad)%nat) by (pose proof (Nat.pow_nonzero 2 pad); lia).
    destruct (2 ^ pad)%nat as [|np]; [lia|].
    cbn [seq map flatten_paths] in E |- *. rewrite rev_unit in E |- *. rewrite rev_involutive, Ew.
    cbn [bind fst snd] in E |- *. exact E.
  - constructor; [exact Hsh|rewrite Hlen; apply HSw|].
    intros i k j s l Hg. rewrite Hlen. rewrite Hget in Hg.
    destruct ((i =? idw) && _ && _)%nat.
    + destruct (get tw i k) as [[[n0 s0] l0]|] eqn:Eg; [|discriminate Hg].
      cbn in Hg. injection Hg as -> _ _. eapply (S_next _ HSw); eauto.
    + eapply (S_next _ HSw); eauto.
Qed.

Definition bad (m : mode) (c : N * N) : Prop :=
  fst c = 0 \/ (m = Debug /\ 32 <= (fst c - 1) / N.of_nat sp * N.of_nat sp).

Lemma bad_dec m c : bad m c \/ ~ bad m c.
Proof.
  unfold bad. destruct (N.eq_dec (fst c) 0); [tauto|]. destruct m; [|right; intuition discriminate].
  destruct (N.le_gt_cases 32 ((fst c - 1) / N.of_nat sp * N.of_nat sp)); [tauto|].
  right. intuition lia.
Qed.

Lemma gen_bad m l v lf : bad m (l, v) ->
  u_sub m 64 (ceil_div l (N.of_nat sp) * N.of_nat sp) l = Ok lf :> outcome huff_error N ->
  generate_coding_paths m (l, v) (N.of_nat sp) = Panic.
Proof.
  intros Hb Hs. destruct (N.eq_dec l 0) as [->|Hl].
  - unfold generate_coding_paths. cbn [fst snd].
    assert (E : ceil_div 0 (N.of_nat sp) = 0).
    { unfold ceil_div. apply N.div_small. lia. }
    rewrite E in Hs |- *. cbn in Hs. injection Hs as <-. reflexivity.
  - destruct Hb as [?|[-> Hb]]; [contradiction|]. cbn [fst] in Hb.
    destruct (ceil_div_spec sp sp_pos (N.to_nat l)) as (n & pad & Hn & Hpad & Hps & Hn1); [lia|].
    rewrite N2Nat.id in Hn.
    unfold generate_coding_paths. cbn [fst snd]. rewrite Hs. cbn [bind].
    assert (lf = N.of_nat pad).
    { rewrite Hn, u_sub_ok in Hs by nia. injection Hs as <-. nia. }
    subst lf. unfold u_shl at 1. destruct (N.ltb_spec (N.of_nat pad) 32); [|lia]. cbn [bind].
    rewrite Hn, Nat2N.id. destruct n as [|n]; [lia|].
    rewrite coding_chunks_panic; [reflexivity|].
    assert (Hdiv : (l - 1) / N.of_nat sp = N.of_nat n).
    { symmetry. apply (N.div_unique (l - 1) (N.of_nat sp) (N.of_nat n) (N.of_nat (sp - 1 - pad))); nia. }
    rewrite Hdiv in Hb. lia.
Qed.

Lemma codings_safe m : forall codings asc t, Safe t ->
  (exists c, In c codings /\ bad m c) /\
    flatten_codings m (blank sp) t (N.of_nat sp) asc codings = Panic \/
  (forall c, In c codings -> ~ bad m c) /\
    exists t', flatten_codings m (blank sp) t (N.of_nat sp) asc codings = Ok t'.
Proof.
  induction codings as [|[l v] codings IH]; intros asc t HS.
  - right. split; [intros c []|]. eexists; reflexivity.
  - cbn [flatten_codings fst].
    assert (Hsub : exists lf, u_sub m 64 (ceil_div l (N.of_nat sp) * N.of_nat sp) l = Ok lf :> outcome huff_error N).
    { destruct (N.eq_dec l 0) as [->|Hl].
      - rewrite u_sub_ok by lia. eauto.
      - destruct (ceil_div_spec sp sp_pos (N.to_nat l)) as (n & pad & Hn & Hpad & _); [lia|].
        rewrite N2Nat.id in Hn. rewrite Hn, u_sub_ok by nia. eauto. }
    destruct Hsub as [lf Hs].
    destruct (bad_dec m (l, v)) as [Hb|Hb].
    + left. split; [exists (l, v); split; [now left|exact Hb]|].
      rewrite Hs. cbn [bind]. now rewrite (gen_bad m l v lf Hb Hs).
    + assert (Hl : l <> 0) by (intros ->; apply Hb; now left).
      destruct (gen_paths_safe m (N.to_nat l) v) as (keys & last & pad & E1 & E2 & Hk & Hlast); [lia| |].
      { destruct m; [right|now left].
        destruct (Nat.lt_ge_cases ((N.to_nat l - 1) / sp * sp) 32) as [?|Hge]; [assumption|].
        exfalso. apply Hb. right. split; [reflexivity|]. cbn [fst].
        replace ((l - 1) / N.of_nat sp) with (N.of_nat ((N.to_nat l - 1) / sp)); [lia|].
        rewrite Nat2N.inj_div. f_equal. lia. }
      rewrite N2Nat.id in E1, E2.
      rewrite E1. cbn [bind]. rewrite E2. cbn [bind].
      destruct (paths_safe t 0 keys last pad asc (N.of_nat pad) HS) as (t1 & E3 & HS1); auto.
      { apply HS. }
      change (N.of_nat 0) with 0 in E3. rewrite E3. cbn [bind].
      destruct (IH (asc + 1) t1 HS1) as [[(c & Hc & Hbc) E]|[Hc E]].
      * left. split; [exists c; split; [now right|exact Hbc]|exact E].
      * right. split; [|exact E]. intros c [<-|Hi]; auto.
Qed.
End P.

Lemma flatten_panic m s codings :
  let sp := speed_bits s in
  (exists t, flatten m codings s = Ok t) /\
    (forall c, In c codings -> fst c <> 0 /\ (m = Debug -> (fst c - 1) / sp * sp < 32)) \/
  flatten m codings s = Panic /\
    (exists c, In c codings /\ (fst c = 0 \/ (m = Debug /\ 32 <= (fst c - 1) / sp * sp))).
Proof.
  intros sp. set (n := N.to_nat sp).
  assert (Hn : N.of_nat n = sp) by (unfold n; now rewrite N2Nat.id).
  assert (H1 : (0 < n)%nat) by (unfold n, sp; destruct s; simpl; lia).
  assert (H2 : (n <= 5)%nat) by (unfold n, sp; destruct s; simpl; lia).
  destruct (codings_safe n H1 H2 m codings 0 [blank n]) as [[Hb E]|[Hb E]].
  - constructor; simpl; try lia.
    + constructor; [apply blank_length | constructor].
    + intros i k j s' l Hg. unfold get in Hg. destruct i as [|[|i]]; simpl in Hg; try discriminate Hg.
      apply nth_blank_cell in Hg. discriminate Hg.
  - right. split; [|unfold bad in Hb; now rewrite Hn in Hb].
    unfold flatten. fold sp. rewrite <- Hn. exact E.
  - left. split.
    + unfold flatten. fold sp. rewrite <- Hn. exact E.
    + intros c Hc. specialize (Hb c Hc). unfold bad in Hb. rewrite Hn in Hb.
      split; [tauto|]. intros ->. apply N.nle_gt. tauto.
Qed.
