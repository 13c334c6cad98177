(* Proof that `flatten` represents any prefix-free code (C10). *)
From Verif Require Import Base HuffTables HuffModel HuffTree.

Section Flat.
Variable sp : nat.
Hypothesis sp_pos : (0 < sp)%nat.
Notation table := (list (list cell)).

Definition get (t : table) (i k : nat) : option cell :=
  match nth_error t i with Some row => nth_error row k | None => None end.

Lemma update_length {A} (l : list A) : forall i f, length (update l i f) = length l.
Proof. induction l; intros [|i] f; simpl; auto. Qed.

Lemma nth_update {A} (l : list A) : forall i j f,
  nth_error (update l i f) j =
  if (i =? j)%nat then option_map f (nth_error l j) else nth_error l j.
Proof.
  induction l as [|x l IH]; intros [|i] [|j] f; simpl; auto.
  destruct (i =? j)%nat; reflexivity.
Qed.

Definition put (t : table) (i k : nat) (f : cell -> cell) : table :=
  update t i (fun row => update row k f).

Lemma get_put t i k f i' k' :
  get (put t i k f) i' k' =
  if ((i =? i') && (k =? k'))%nat then option_map f (get t i' k') else get t i' k'.
Proof.
  unfold get, put. rewrite nth_update.
  destruct (Nat.eqb_spec i i') as [->|]; simpl; [|reflexivity].
  destruct (nth_error t i') as [row|]; simpl; [|now destruct (k =? k')%nat].
  apply nth_update.
Qed.

Definition shape (t : table) : Prop := Forall (fun row => length row = (2 ^ sp)%nat) t.

Lemma shape_put t i k f : shape t -> shape (put t i k f).
Proof.
  unfold shape, put. intros H. revert i.
  induction H as [|row t Hr Ht IH]; intros [|i]; simpl; constructor; auto.
  now rewrite update_length.
Qed.

Lemma put_length t i k f : length (put t i k f) = length t.
Proof. apply update_length. Qed.

Definition blank : list cell := blank_transition (N.of_nat sp).

Lemma blank_length : length blank = (2 ^ sp)%nat.
Proof.
  unfold blank, blank_transition. rewrite repeat_length.
  rewrite N2Nat.inj_pow, Nat2N.id. reflexivity.
Qed.

Lemma nth_blank k : (k < 2 ^ sp)%nat -> nth_error blank k = Some (None, None, 0).
Proof.
  intros H. unfold blank, blank_transition. apply nth_error_repeat.
  rewrite N2Nat.inj_pow, Nat2N.id. exact H.
Qed.

Lemma val_chunk ch : length ch = sp -> (N.to_nat (val ch) < 2 ^ sp)%nat.
Proof.
  intros H. pose proof (val_lt ch) as Hv. rewrite H in Hv.
  assert (N.to_nat (val ch) < N.to_nat (2 ^ N.of_nat sp))%nat by lia.
  now rewrite N2Nat.inj_pow, Nat2N.id in H0.
Qed.

Lemma get_shape t i k : shape t -> (i < length t)%nat -> (k < 2 ^ sp)%nat ->
  exists c, get t i k = Some c.
Proof.
  intros Hs Hi Hk. unfold get.
  destruct (nth_error t i) as [row|] eqn:E.
  - assert (length row = (2 ^ sp)%nat).
    { unfold shape in Hs. rewrite Forall_forall in Hs. apply Hs. eapply nth_error_In; eauto. }
    destruct (nth_error row k) eqn:E'; [eauto|]. apply nth_error_None in E'. lia.
  - apply nth_error_None in E. lia.
Qed.

(* code [c] is completed by the step from p to q *)
Definition ends (p q c : list bool) : Prop := prefix c q /\ (length p < length c)%nat.

Definition next_ok (rows : list (list bool)) (q : list bool) (n : option N) : Prop :=
  match n with
  | Some j => nth_error rows (N.to_nat j) = Some q
  | None => ~ In q rows
  end.

Definition sym_ok (done : list (list bool)) (p q : list bool) (s : option N) (l : N) : Prop :=
  match s with
  | Some k => exists c, nth_error done (N.to_nat k) = Some c /\ ends p q c /\
                        l = N.of_nat (length q - length c)
  | None => l = 0 /\ forall c, In c done -> ~ ends p q c
  end.

Definition aligned (p : list bool) : Prop := exists k, length p = (k * sp)%nat.

Variable A : list bool -> Prop.   (* admissible rows *)
Hypothesis A_bound : forall ps, NoDup ps -> Forall A ps -> (length ps <= 256)%nat.

Record Inv (done rows : list (list bool)) (t : table) : Prop := {
  I_len : length t = length rows;
  I_shape : shape t;
  I_root : nth_error rows 0 = Some [];
  I_nodup : NoDup rows;
  I_closed : forall p ch, length ch = sp -> In (p ++ ch) rows -> In p rows;
  I_align : forall p, In p rows -> aligned p;
  I_full : forall p, inner done p -> aligned p -> In p rows;
  I_A : Forall A rows;
  I_cell : forall i p ch, nth_error rows i = Some p -> length ch = sp ->
    exists n s l, get t i (N.to_nat (val ch)) = Some (n, s, l) /\
      next_ok rows (p ++ ch) n /\ sym_ok done p (p ++ ch) s l
}.

Lemma NoDup_nth {B} (l : list B) i j x :
  NoDup l -> nth_error l i = Some x -> nth_error l j = Some x -> i = j.
Proof.
  intros Hn Hi Hj. rewrite NoDup_nth_error in Hn. apply Hn; [|congruence].
  apply nth_error_Some. congruence.
Qed.

Lemma NoDup_snoc {B} (l : list B) x : NoDup l -> ~ In x l -> NoDup (l ++ [x]).
Proof.
  intros Hn Hx. apply NoDup_rev in Hn. rewrite <- (rev_involutive (l ++ [x])).
  apply NoDup_rev. rewrite rev_unit. constructor; auto. now rewrite <- in_rev.
Qed.

Lemma get_app t row i k :
  get (t ++ [row]) i k = if (i =? length t)%nat then nth_error row k else get t i k.
Proof.
  unfold get. destruct (Nat.eqb_spec i (length t)) as [->|Hi].
  - rewrite nth_error_app2, Nat.sub_diag by lia. reflexivity.
  - destruct (Nat.lt_ge_cases i (length t)).
    + rewrite nth_error_app1 by lia. reflexivity.
    + rewrite (proj2 (nth_error_None t i)) by lia.
      rewrite (proj2 (nth_error_None (t ++ [row]) i)); [reflexivity|].
      rewrite app_length; simpl; lia.
Qed.

(* One new row. *)
Lemma grow done rows t id p ch s l :
  Inv done rows t -> nth_error rows id = Some p -> length ch = sp ->
  A (p ++ ch) ->
  get t id (N.to_nat (val ch)) = Some (None, s, l) ->
  (length rows < 256)%nat /\
  Inv done (rows ++ [p ++ ch])
      (put (t ++ [blank]) id (N.to_nat (val ch))
           (fun c => (Some (N.of_nat (length t)), snd (fst c), snd c))).
Proof.
  intros [Hlen Hsh Hroot Hnd Hcl Hal Hfull HA Hcell] Hid Hch HAq Hg.
  assert (Hq : ~ In (p ++ ch) rows).
  { destruct (Hcell _ _ _ Hid Hch) as (n & s' & l' & Hg' & Hn & _).
    rewrite Hg in Hg'. injection Hg' as <- <- <-. exact Hn. }
  assert (Hnd' : NoDup (rows ++ [p ++ ch])) by now apply NoDup_snoc.
  assert (HA' : Forall A (rows ++ [p ++ ch])) by (apply Forall_app; auto).
  assert (Hin : In p rows) by (eapply nth_error_In; eauto).
  assert (Hidlt : (id < length rows)%nat) by (apply nth_error_Some; congruence).
  split.
  { pose proof (A_bound _ Hnd' HA') as B. rewrite app_length in B; simpl in B. lia. }
  constructor; auto.
  - rewrite put_length, !app_length, Hlen. reflexivity.
  - apply shape_put. unfold shape. apply Forall_app; split; auto.
    constructor; auto using blank_length.
  - rewrite nth_error_app1; [exact Hroot|]. lia.
  - intros p' ch' Hch' Hi. apply in_app_iff in Hi. apply in_app_iff.
    destruct Hi as [Hi|[Hi|[]]]; [left; eauto|].
    apply app_inj_len in Hi.
    + destruct Hi as [-> _]. now left.
    + apply (f_equal (@length bool)) in Hi. rewrite !app_length in Hi. lia.
  - intros p' Hi. apply in_app_iff in Hi. destruct Hi as [Hi|[<-|[]]]; auto.
    destruct (Hal _ Hin) as [k Hk]. exists (S k). rewrite app_length, Hk, Hch. simpl. lia.
  - intros p' Hi Ha. apply in_app_iff. left. auto.
  - intros i p' ch' Hi Hch'.
    rewrite get_put.
    destruct (Nat.lt_ge_cases i (length rows)) as [Hlt|Hge].
    + (* an old row *)
      rewrite nth_error_app1 in Hi by lia.
      destruct (Hcell _ _ _ Hi Hch') as (n & s' & l' & Hg' & Hn & Hs).
      rewrite get_app. destruct (Nat.eqb_spec i (length t)) as [|_]; [lia|].
      destruct (Nat.eqb_spec id i) as [->|Hne]; simpl.
      * assert (p' = p) by congruence. subst p'.
        destruct (Nat.eqb_spec (N.to_nat (val ch)) (N.to_nat (val ch'))) as [He|Hne].
        -- assert (ch' = ch) by (apply val_inj; lia). subst ch'.
           rewrite Hg. cbn [option_map]. exists (Some (N.of_nat (length t))), s, l.
           split; [reflexivity|]. split.
           ++ simpl. rewrite Nat2N.id, nth_error_app2, Hlen, Nat.sub_diag by lia. reflexivity.
           ++ rewrite Hg in Hg'. injection Hg' as <- <- <-. exact Hs.
        -- exists n, s', l'. split; [exact Hg'|]. split; [|exact Hs].
           destruct n as [j|]; simpl in *.
           ++ rewrite nth_error_app1; [exact Hn|]. apply nth_error_Some. congruence.
           ++ rewrite in_app_iff. intros [?|[He|[]]]; auto.
              apply app_inj_len in He; [|lia]. destruct He as [_ ->]. auto.
      * exists n, s', l'. split; [exact Hg'|]. split; [|exact Hs].
        destruct n as [j|]; simpl in *.
        ++ rewrite nth_error_app1; [exact Hn|]. apply nth_error_Some. congruence.
        ++ rewrite in_app_iff. intros [?|[He|[]]]; auto.
           apply app_inj_len in He.
           ** destruct He as [<- _]. apply Hne. exact (NoDup_nth _ _ _ _ Hnd Hid Hi).
           ** apply (f_equal (@length bool)) in He. rewrite !app_length in He. lia.
    + (* the new row *)
      assert (i = length rows).
      { assert (i < length (rows ++ [p ++ ch]))%nat by (apply nth_error_Some; congruence).
        rewrite app_length in H; simpl in H; lia. }
      subst i. rewrite nth_error_app2, Nat.sub_diag in Hi by lia. injection Hi as <-.
      destruct (Nat.eqb_spec id (length rows)); [lia|]. simpl andb. cbv iota.
      rewrite get_app, Hlen, Nat.eqb_refl.
      exists None, None, 0. rewrite nth_blank by now apply val_chunk.
      split; [reflexivity|]. split.
      * simpl. rewrite in_app_iff. intros [Hi|[He|[]]].
        -- apply Hq. eapply Hcl; eauto.
        -- apply (f_equal (@length bool)) in He. rewrite !app_length in He. lia.
      * split; [reflexivity|]. intros c Hc [Hp Hl].
        apply Hq. apply Hfull.
        -- exists c. split; [exact Hc|]. split; [|exact Hl].
           eapply prefix_total; [|exact Hp|lia]. eexists; reflexivity.
        -- destruct (Hal _ Hin) as [k Hk]. exists (S k). rewrite app_length, Hk, Hch. simpl; lia.
Qed.

Lemma flatten_walk_ok done : forall chs rows t id p,
  Inv done rows t -> nth_error rows id = Some p ->
  Forall (fun ch => length ch = sp) chs ->
  (forall q, prefix q (p ++ concat chs) -> (length p <= length q)%nat -> aligned q -> A q) ->
  exists rows' t' id',
    flatten_walk blank t (N.of_nat id) (map val chs) = Ok (t', N.of_nat id') /\
    Inv done rows' t' /\ nth_error rows' id' = Some (p ++ concat chs) /\
    (forall q, In q rows -> In q rows') /\
    (forall q, prefix q (p ++ concat chs) -> (length p <= length q)%nat -> aligned q -> In q rows').
Proof.
  induction chs as [|ch chs IH]; intros rows t id p HI Hid Hf HA.
  - exists rows, t, id. simpl. rewrite app_nil_r. refine (conj _ (conj _ (conj _ (conj _ _)))); auto.
    intros q Hq Hl Ha. replace q with p; [eapply nth_error_In; eauto|].
    destruct Hq as [x Hx]. destruct x as [|b x].
    + now rewrite app_nil_r in Hx.
    + apply (f_equal (@length bool)) in Hx. rewrite app_length in Hx. simpl in Hx. lia.
  - apply Forall_cons_iff in Hf. destruct Hf as [Hch Hf].
    cbn [map flatten_walk concat]. cbn [concat] in HA.
    rewrite Nat2N.id.
    destruct (I_cell _ _ _ HI _ _ _ Hid Hch) as (n & s & l & Hg & Hn & Hs).
    pose proof Hg as Hg0. unfold get in Hg0.
    destruct (nth_error t id) as [row|] eqn:Er; [|discriminate]. rewrite Hg0.
    assert (Hal : aligned p) by (eapply I_align; eauto; eapply nth_error_In; eauto).
    assert (Hal' : aligned (p ++ ch)).
    { destruct Hal as [k Hk]. exists (S k). rewrite app_length, Hk, Hch. simpl; lia. }
    assert (Hstep : forall q, prefix q (p ++ ch ++ concat chs) -> (length p <= length q)%nat ->
                     aligned q -> q = p \/ (length (p ++ ch) <= length q)%nat).
    { intros q Hq Hl [k Hk]. destruct Hal as [k0 Hk0].
      destruct (Nat.eq_dec (length q) (length p)) as [He|Hne].
      - left. destruct Hq as [x Hx]. symmetry in Hx. apply app_inj_len in Hx; tauto.
      - right. rewrite app_length, Hch. assert (k0 < k)%nat by nia. nia. }
    rewrite app_assoc in HA.
    destruct n as [j|].
    + simpl in Hn.
      destruct (IH rows t (N.to_nat j) (p ++ ch) HI Hn Hf) as (rows' & t' & id' & E & HI' & Hid' & Hm & Hr).
      { intros q Hq Hl Ha. apply HA; auto. rewrite app_length in Hl. lia. }
      rewrite N2Nat.id in E. rewrite app_assoc.
      exists rows', t', id'. refine (conj _ (conj _ (conj _ (conj _ _)))); auto.
      intros q Hq Hl Ha. destruct (Hstep q) as [->|Hl']; auto.
      { now rewrite app_assoc. }
      apply Hm. eapply nth_error_In; eauto.
    + destruct (grow done rows t id p ch s l HI Hid Hch) as [Hlt HI']; auto.
      { apply HA; auto.
        - eexists; reflexivity.
        - rewrite app_length; lia. }
      assert (Hw : wrap 8 (N.of_nat (length t)) = N.of_nat (length t)).
      { unfold wrap. apply N.mod_small. rewrite (I_len _ _ _ HI).
        change (2 ^ 8) with 256. lia. }
      rewrite Hw.
      destruct (IH _ _ (length t) (p ++ ch) HI') as (rows' & t' & id' & E & HI'' & Hid' & Hm & Hr); auto.
      { rewrite (I_len _ _ _ HI), nth_error_app2, Nat.sub_diag by lia. reflexivity. }
      { intros q Hq Hl Ha. apply HA; auto. rewrite app_length in Hl. lia. }
      unfold put in E. rewrite E, app_assoc.
      exists rows', t', id'. refine (conj _ (conj _ (conj _ (conj _ _)))); auto.
      * intros q Hq. apply Hm. apply in_app_iff. auto.
      * intros q Hq Hl Ha. destruct (Hstep q) as [->|Hl']; auto.
        { now rewrite app_assoc. }
        apply Hm, in_app_iff. left. eapply nth_error_In; eauto.
Qed.

(* The writes of the variants of the last chunk. *)
Definition setc (a l : N) (c : cell) : cell := (fst (fst c), Some (wrap 16 a), wrap 8 l).

Lemma flatten_set_ok t id key a l c :
  get t id (N.to_nat key) = Some c ->
  flatten_set t (N.of_nat id) key a l = Ok (put t id (N.to_nat key) (setc a l)).
Proof.
  unfold get, flatten_set. rewrite Nat2N.id.
  destruct (nth_error t id) as [row|]; [|discriminate]. intros ->. reflexivity.
Qed.

Lemma put_vals keys last n : forall a t id asc l,
  shape t -> (id < length t)%nat -> (N.to_nat last + a + n <= 2 ^ sp)%nat ->
  exists t',
    flatten_paths blank t (N.of_nat id)
      (map (fun i => keys ++ [last + N.of_nat i]) (seq a n)) false asc l = Ok t' /\
    shape t' /\ length t' = length t /\
    forall i k, get t' i k =
      if ((i =? id) && (N.to_nat last + a <=? k) && (k <? N.to_nat last + a + n))%nat
      then option_map (setc asc l) (get t i k) else get t i k.
Proof.
  induction n as [|n IH]; intros a t id asc l Hsh Hid Hb.
  - exists t. split; [reflexivity|]. split; [exact Hsh|]. split; [reflexivity|]. intros i k.
    destruct ((i =? id) && (N.to_nat last + a <=? k) && (k <? N.to_nat last + a + 0))%nat eqn:E; [|reflexivity].
    rewrite !andb_true_iff in E. destruct E as [[_ E1] E2].
    apply Nat.leb_le in E1. apply Nat.ltb_lt in E2. lia.
  - cbn [seq map flatten_paths].
    rewrite rev_unit. cbn [bind fst snd].
    destruct (get_shape t id (N.to_nat (last + N.of_nat a)) Hsh Hid) as [c Hc]; [lia|].
    rewrite (flatten_set_ok _ _ _ _ _ c Hc). cbn [bind].
    destruct (IH (S a) (put t id (N.to_nat (last + N.of_nat a)) (setc asc l)) id asc l)
      as (t' & E & Hs' & Hl' & Hg').
    { now apply shape_put. }
    { now rewrite put_length. }
    { lia. }
    exists t'. split; [exact E|]. split; [exact Hs'|]. split; [now rewrite Hl', put_length|].
    intros i k. rewrite Hg', get_put.
    replace (N.to_nat (last + N.of_nat a)) with (N.to_nat last + a)%nat by lia.
    destruct (Nat.eqb_spec i id) as [->|Hne].
    + rewrite Nat.eqb_refl. simpl.
      destruct (Nat.eqb_spec (N.to_nat last + a) k) as [<-|Hk].
      * replace (N.to_nat last + S a <=? N.to_nat last + a)%nat with false
          by (symmetry; apply Nat.leb_gt; lia).
        simpl. rewrite Nat.leb_refl.
        replace (N.to_nat last + a <? N.to_nat last + a + S n)%nat with true
          by (symmetry; apply Nat.ltb_lt; lia).
        reflexivity.
      * replace (N.to_nat last + S a <=? k)%nat with (N.to_nat last + a <=? k)%nat
          by (apply eq_true_iff_eq; rewrite !Nat.leb_le; lia).
        replace (N.to_nat last + S a + n)%nat with (N.to_nat last + a + S n)%nat by lia.
        reflexivity.
    + simpl. destruct (Nat.eqb_spec id i); [congruence|]. reflexivity.
Qed.

(* ------------------------------------------------------------------ *)
(* Chunks of a code. *)
Lemma chop n : forall l : list bool, length l = (n * sp)%nat ->
  exists chs, length chs = n /\ Forall (fun ch => length ch = sp) chs /\ concat chs = l.
Proof.
  induction n as [|n IH]; intros l Hl.
  - exists []. destruct l; [auto|discriminate].
  - destruct (IH (skipn sp l)) as (chs & H1 & H2 & H3).
    { rewrite skipn_length. simpl in Hl. lia. }
    exists (firstn sp l :: chs). split; [simpl; now rewrite H1|]. split.
    + constructor; auto. rewrite firstn_length. simpl in Hl. lia.
    + simpl. rewrite H3. apply firstn_skipn.
Qed.

Lemma concat_len chs : Forall (fun ch : list bool => length ch = sp) chs ->
  length (concat chs) = (length chs * sp)%nat.
Proof. induction 1 as [|ch chs H _ IH]; simpl; [reflexivity|]. rewrite app_length, IH, H. lia. Qed.

Lemma coding_chunks_ok m : forall post pre,
  Forall (fun ch : list bool => length ch = sp) (pre ++ post) ->
  (length (pre ++ post) * sp <= 32)%nat ->
  coding_chunks m (val (concat (pre ++ post))) (N.of_nat (length (pre ++ post))) (N.of_nat sp)
                (2 ^ N.of_nat sp - 1) (seq (length pre) (length post))
  = Ok (map val post).
Proof.
  induction post as [|ch post IH]; intros pre Hf Hb; [reflexivity|].
  cbn [length seq coding_chunks map].
  assert (Hlen : length (pre ++ ch :: post) = S (length pre + length post)) by (rewrite app_length; simpl; lia).
  rewrite u_sub_ok by lia. cbn [bind].
  replace (N.of_nat (length (pre ++ ch :: post)) - (N.of_nat (length pre) + 1))
    with (N.of_nat (length post)) by lia.
  rewrite u_shr_ok by nia. cbn [bind].
  pose proof (IH (pre ++ [ch])) as IH'.
  rewrite <- app_assoc in IH'. simpl (_ ++ _ :: _) in IH' at 1.
  replace (length (pre ++ [ch])) with (S (length pre)) in IH' by (rewrite app_length; simpl; lia).
  cbn [app] in IH'. rewrite IH' by assumption. cbn [bind].
  f_equal. f_equal. rewrite land_ones_mod, concat_app. cbn [concat].
  apply Forall_app in Hf. destruct Hf as [Hpre Hpost]. apply Forall_cons_iff in Hpost.
  destruct Hpost as [Hch Hpost].
  rewrite app_assoc, val_app, (concat_len post) by assumption.
  replace (N.of_nat (length post) * N.of_nat sp) with (N.of_nat (length post * sp)) by lia.
  rewrite N.div_add_l by (pose proof (pow2_pos (N.of_nat (length post * sp))); lia).
  rewrite (N.div_small (val (concat post)))
    by (rewrite <- (concat_len post) by assumption; apply val_lt).
  rewrite N.add_0_r, val_app, Hch, N.add_comm, N.mod_add
    by (pose proof (pow2_pos (N.of_nat sp)); lia).
  apply N.mod_small. rewrite <- Hch. apply val_lt.
Qed.

Lemma val_zeros n : val (repeat false n) = 0.
Proof. induction n; [reflexivity|]. cbn [repeat]. rewrite val_cons, IHn. simpl. lia. Qed.

Lemma ceil_div_spec l : (1 <= l)%nat ->
  exists n pad, ceil_div (N.of_nat l) (N.of_nat sp) = N.of_nat n /\
    (n * sp = l + pad)%nat /\ (pad < sp)%nat /\ (1 <= n)%nat.
Proof.
  intros Hl. unfold ceil_div.
  set (x := (N.of_nat l + N.of_nat sp - 1) / N.of_nat sp).
  assert (Hx : N.of_nat sp * x <= N.of_nat l + N.of_nat sp - 1).
  { apply N.mul_div_le; lia. }
  assert (Hx' : N.of_nat l + N.of_nat sp - 1 < N.of_nat sp * N.succ x).
  { apply N.mul_succ_div_gt; lia. }
  exists (N.to_nat x), (N.to_nat x * sp - l)%nat. nia.
Qed.

(* The chunks computed for a code are the code's own bits. *)
Definition good (m : mode) (l : nat) (v : N) : Prop :=
  exists chs lastc pad,
    bits_of l v = concat chs ++ lastc /\
    Forall (fun ch => length ch = sp) chs /\
    (length lastc + pad = sp)%nat /\ (1 <= length lastc)%nat /\
    u_sub m 64 (ceil_div (N.of_nat l) (N.of_nat sp) * N.of_nat sp) (N.of_nat l)
      = Ok (N.of_nat pad) :> outcome huff_error N /\
    generate_coding_paths m (N.of_nat l, v) (N.of_nat sp) =
      Ok (map (fun i => map val chs ++ [val lastc * 2 ^ N.of_nat pad + N.of_nat i])
              (seq 0 (2 ^ pad))).

(* A code of length l in 1..=32 - 32 mod sp. *)
Lemma paths_ok m l v : (1 <= l)%nat -> v < 2 ^ N.of_nat l ->
  (forall n, n * sp < l + sp -> n * sp <= 32)%nat ->
  good m l v.
Proof.
  intros Hl Hv Hb.
  destruct (ceil_div_spec l Hl) as (n & pad & Hn & Hpad & Hps & Hn1).
  assert (Hn32 : (n * sp <= 32)%nat) by (apply Hb; lia).
  destruct (chop n (bits_of l v ++ repeat false pad)) as (all & Hall & Hf & Hc).
  { rewrite app_length, bits_of_length, repeat_length. lia. }
  destruct (exists_last (l := all)) as (chs & last & ->).
  { intros ->. simpl in Hall. lia. }
  rewrite app_length in Hall; simpl in Hall.
  pose proof Hf as Hf0.
  apply Forall_app in Hf. destruct Hf as [Hf Hlast]. apply Forall_cons_iff in Hlast.
  destruct Hlast as [Hlast _].
  pose proof Hc as Hc0.
  rewrite concat_app in Hc. simpl in Hc. rewrite app_nil_r in Hc.
  assert (Hlc : length (concat chs) = (length chs * sp)%nat) by now apply concat_len.
  assert (Hll : (length chs * sp < l)%nat) by nia.
  (* last = lastc ++ zeros *)
  assert (Hex : exists lastc, last = lastc ++ repeat false pad /\ bits_of l v = concat chs ++ lastc).
  { exists (skipn (length (concat chs)) (bits_of l v)).
    assert (H1 : firstn (length (concat chs)) (bits_of l v) = concat chs).
    { apply (f_equal (firstn (length (concat chs)))) in Hc.
      rewrite firstn_app, firstn_all, Nat.sub_diag, firstn_O, app_nil_r in Hc.
      rewrite firstn_app, bits_of_length in Hc.
      replace (length (concat chs) - l)%nat with 0%nat in Hc by lia.
      rewrite firstn_O, app_nil_r in Hc. congruence. }
    assert (H2 : bits_of l v = concat chs ++ skipn (length (concat chs)) (bits_of l v)).
    { rewrite <- H1 at 1. rewrite Hlc. symmetry. apply firstn_skipn. }
    split; [|exact H2].
    rewrite H2, <- app_assoc in Hc. apply app_inv_head in Hc. exact Hc. }
  destruct Hex as (lastc & Hlc1 & Hlc2).
  assert (Hlen : (length lastc + pad = sp)%nat).
  { rewrite Hlc1, app_length, repeat_length in Hlast. exact Hlast. }
  exists chs, lastc, pad. split; [exact Hlc2|]. split; [exact Hf|]. split; [exact Hlen|].
  split; [lia|].
  assert (Hsub : u_sub m 64 (ceil_div (N.of_nat l) (N.of_nat sp) * N.of_nat sp) (N.of_nat l)
      = Ok (N.of_nat pad) :> outcome huff_error N).
  { rewrite Hn, u_sub_ok by nia. f_equal. nia. }
  split; [exact Hsub|].
  unfold generate_coding_paths. cbn [fst snd]. rewrite Hsub. cbn [bind].
  assert (Hval : v * 2 ^ N.of_nat pad = val (concat (chs ++ [last]))).
  { rewrite Hc0, val_app, repeat_length, val_zeros, val_bits_of_small by exact Hv. lia. }
  assert (Hlt : v * 2 ^ N.of_nat pad < 2 ^ 32).
  { rewrite Hval. eapply N.lt_le_trans; [apply val_lt|]. apply N.pow_le_mono_r; [lia|].
    rewrite Hc0, app_length, bits_of_length, repeat_length. lia. }
  rewrite u_shl_ok by (try exact Hlt; nia). cbn [bind].
  rewrite Hval, Hn, Nat2N.id.
  pose proof (coding_chunks_ok m (chs ++ [last]) []) as Hcc.
  cbn [app length] in Hcc. rewrite app_length in Hcc. cbn [length] in Hcc. rewrite Hall in Hcc.
  rewrite Hcc by (assumption || lia). cbn [bind].
  rewrite map_app, rev_app_distr. cbn [map rev app].
  rewrite rev_involutive. f_equal.
  replace (N.to_nat (2 ^ N.of_nat pad)) with (2 ^ pad)%nat
    by now rewrite N2Nat.inj_pow, Nat2N.id.
  apply map_ext. intros i. rewrite Hlc1, val_app, repeat_length, val_zeros.
  now rewrite N.add_0_r.
Qed.

(* One code is added. *)
Lemma add_code m done rows t l v :
  (1 <= l)%nat -> v < 2 ^ N.of_nat l ->
  good m l v -> (sp <= 32)%nat ->
  N.of_nat (length done) < 65536 ->
  Inv done rows t ->
  (forall q, prefix q (bits_of l v) -> (length q < l)%nat -> aligned q -> A q) ->
  exists rows' t' leftover paths,
    u_sub m 64 (ceil_div (N.of_nat l) (N.of_nat sp) * N.of_nat sp) (N.of_nat l)
      = Ok leftover :> outcome huff_error N /\
    generate_coding_paths m (N.of_nat l, v) (N.of_nat sp) = Ok paths /\
    flatten_paths blank t 0 paths true (N.of_nat (length done)) leftover = Ok t' /\
    Inv (done ++ [bits_of l v]) rows' t'.
Proof.
  intros Hl Hv Hb Hsp32 Hd HI HA.
  destruct Hb as (chs & lastc & pad & Hbits & Hf & Hlen & H1 & Hsub & Hgen).
  set (c := bits_of l v) in *.
  assert (Hcl : length c = l) by apply bits_of_length.
  assert (Hchs : length (concat chs) = (length chs * sp)%nat) by now apply concat_len.
  assert (Hlc : (length (concat chs) + length lastc = l)%nat).
  { rewrite <- Hcl, Hbits, app_length. reflexivity. }
  destruct (flatten_walk_ok done chs rows t 0 [] HI (I_root _ _ _ HI) Hf)
    as (rows' & tw & id & Ew & HIw & Hid & Hmono & Hnew).
  { intros q Hq _ Ha. apply HA; auto.
    - rewrite Hbits. now apply prefix_app_r.
    - apply prefix_length in Hq. simpl in Hq. lia. }
  cbn [app] in *.
  change (N.of_nat 0) with 0 in Ew.
  destruct HIw as [Wlen Wsh Wroot Wnd Wcl Wal Wfull WA Wcell].
  assert (Hidlt : (id < length tw)%nat).
  { rewrite Wlen. apply nth_error_Some. congruence. }
  set (base := val lastc * 2 ^ N.of_nat pad).
  assert (Hbase : (N.to_nat base + 2 ^ pad <= 2 ^ sp)%nat).
  { unfold base. pose proof (val_lt lastc) as Hvl.
    replace (2 ^ sp)%nat with (2 ^ length lastc * 2 ^ pad)%nat
      by (rewrite <- Nat.pow_add_r; now rewrite Hlen).
    rewrite N2Nat.inj_mul, N2Nat.inj_pow, Nat2N.id. change (N.to_nat 2) with 2%nat.
    assert (S (N.to_nat (val lastc)) <= 2 ^ length lastc)%nat.
    { assert (N.to_nat (val lastc) < N.to_nat (2 ^ N.of_nat (length lastc)))%nat by lia.
      rewrite N2Nat.inj_pow, Nat2N.id in H. exact H. }
    nia. }
  assert (Hpow : (1 <= 2 ^ pad)%nat) by (pose proof (Nat.pow_nonzero 2 pad); lia).
  destruct (put_vals (map val chs) base (2 ^ pad) 0 tw id (N.of_nat (length done)) (N.of_nat pad))
    as (t' & Ep & Hsh' & Hlen' & Hget'); auto; [lia|].
  exists rows', t', (N.of_nat pad), (map (fun i => map val chs ++ [base + N.of_nat i]) (seq 0 (2 ^ pad))).
  split; [exact Hsub|]. split; [exact Hgen|]. split.
  { (* the first variant walks, then all write *)
    destruct (2 ^ pad)%nat as [|np] eqn:Epow; [lia|].
    cbn [seq map flatten_paths] in Ep |- *.
    rewrite rev_unit in Ep |- *. rewrite rev_involutive. rewrite Ew. cbn [bind fst snd] in Ep |- *.
    exact Ep. }
  (* symbol part *)
  assert (Hends : forall i p ch, nth_error rows' i = Some p -> length ch = sp ->
            (ends p (p ++ ch) c <->
             i = id /\ (N.to_nat base <= N.to_nat (val ch) < N.to_nat base + 2 ^ pad)%nat)).
  { intros i p ch Hi Hch.
    assert (Hval : forall x, length x = pad -> val (lastc ++ x) = base + val x).
    { intros x Hx. rewrite val_app, Hx. reflexivity. }
    split.
    - intros [Hp Hpl].
      destruct (Wal p) as [k Hk]; [eapply nth_error_In; eauto|].
      pose proof (prefix_length _ _ Hp) as Hpl2. rewrite app_length in Hpl2.
      assert (k = length chs) by nia. subst k.
      assert (p = concat chs).
      { destruct Hp as [x Hx]. rewrite Hbits, <- app_assoc in Hx.
        apply app_inj_len in Hx; [tauto|lia]. }
      subst p. split; [eapply NoDup_nth; eauto|].
      destruct Hp as [x Hx]. rewrite Hbits, <- app_assoc in Hx. apply app_inv_head in Hx.
      assert (Hxl : length x = pad) by (subst ch; rewrite app_length in Hch; lia).
      subst ch. rewrite Hval by exact Hxl.
      pose proof (val_lt x) as Hvx. rewrite Hxl in Hvx.
      assert (N.to_nat (val x) < N.to_nat (2 ^ N.of_nat pad))%nat by lia.
      rewrite N2Nat.inj_pow, Nat2N.id in H. change (N.to_nat 2) with 2%nat in H. lia.
    - intros [-> Hr]. assert (p = concat chs) by congruence. subst p.
      split; [|rewrite Hcl; lia].
      assert (Hp2 : N.to_nat (2 ^ N.of_nat pad) = (2 ^ pad)%nat)
        by now rewrite N2Nat.inj_pow, Nat2N.id.
      set (x := bits_of pad (val ch - base)).
      assert (Hchx : ch = lastc ++ x).
      { apply val_inj; [unfold x; rewrite app_length, bits_of_length; lia|].
        unfold x. rewrite Hval by apply bits_of_length.
        rewrite val_bits_of_small by lia. lia. }
      exists x. now rewrite Hbits, Hchx, app_assoc at 1. }
  constructor; auto.
  - now rewrite Hlen'.
  - intros p (c' & Hc' & Hp & Hpl) Ha. apply in_app_iff in Hc'.
    destruct Hc' as [Hc'|[<-|[]]].
    + apply Wfull; auto. exists c'. auto.
    + apply Hnew; [|simpl; lia|exact Ha].
      destruct Ha as [k Hk].
      apply (prefix_total _ _ c); auto; [eexists; exact Hbits|].
      assert (k < S (length chs))%nat by (apply (Nat.mul_lt_mono_pos_r sp); lia).
      assert (k * sp <= length chs * sp)%nat by (apply Nat.mul_le_mono_r; lia). lia.
  - intros i p ch Hi Hch.
    destruct (Wcell _ _ _ Hi Hch) as (n & s & lf & Hg & Hn & Hs).
    specialize (Hends i p ch Hi Hch).
    rewrite Hget', Hg. rewrite Nat.add_0_r.
    destruct ((i =? id) && (N.to_nat base <=? N.to_nat (val ch)) &&
              (N.to_nat (val ch) <? N.to_nat base + 2 ^ pad))%nat eqn:E.
    + rewrite !andb_true_iff, Nat.eqb_eq, Nat.leb_le, Nat.ltb_lt in E.
      cbn [option_map]. unfold setc. cbn [fst snd].
      exists n, (Some (wrap 16 (N.of_nat (length done)))), (wrap 8 (N.of_nat pad)).
      split; [reflexivity|]. split; [exact Hn|].
      assert (Hw16 : wrap 16 (N.of_nat (length done)) = N.of_nat (length done)).
      { unfold wrap. apply N.mod_small. change (2 ^ 16) with 65536. lia. }
      assert (Hw8 : wrap 8 (N.of_nat pad) = N.of_nat pad).
      { unfold wrap. apply N.mod_small. change (2 ^ 8) with 256. lia. }
      rewrite Hw16, Hw8. cbn [sym_ok]. exists c. rewrite Nat2N.id.
      split; [rewrite nth_error_app2, Nat.sub_diag by lia; reflexivity|].
      assert (He : ends p (p ++ ch) c) by (apply Hends; tauto).
      split; [exact He|]. f_equal. rewrite app_length, Hch, Hcl.
      assert (p = concat chs) by (destruct E as [[-> _] _]; congruence). subst p. lia.
    + exists n, s, lf. split; [reflexivity|]. split; [exact Hn|].
      destruct s as [k|]; simpl in *.
      * destruct Hs as (c' & Hc' & Hr). exists c'. split; [|exact Hr].
        rewrite nth_error_app1; [exact Hc'|]. apply nth_error_Some. congruence.
      * destruct Hs as [-> Hs]. split; [reflexivity|].
        intros c' Hc'. apply in_app_iff in Hc'. destruct Hc' as [Hc'|[<-|[]]]; [now apply Hs|].
        rewrite Hends. intros (He1 & He2 & He3). subst i. rewrite Nat.eqb_refl in E.
        apply Nat.leb_le in He2. apply Nat.ltb_lt in He3. rewrite He2, He3 in E. discriminate.
Qed.

Definition code_of (c : N * N) : list bool := bits_of (N.to_nat (fst c)) (snd c).

Lemma flatten_codings_ok m : forall codings done rows t,
  (sp <= 32)%nat ->
  Forall (fun c => 1 <= fst c /\ snd c < 2 ^ fst c /\ good m (N.to_nat (fst c)) (snd c)) codings ->
  N.of_nat (length done + length codings) <= 65536 ->
  Inv done rows t ->
  (forall q, inner (map code_of codings) q -> aligned q -> A q) ->
  exists rows' t',
    flatten_codings m blank t (N.of_nat sp) (N.of_nat (length done)) codings = Ok t' /\
    Inv (done ++ map code_of codings) rows' t'.
Proof.
  induction codings as [|[l v] codings IH]; intros done rows t Hsp32 Hf Hd HI HA.
  - exists rows, t. split; [reflexivity|]. simpl. now rewrite app_nil_r.
  - apply Forall_cons_iff in Hf. destruct Hf as [(H1 & Hv & Hb) Hf]. cbn [fst snd] in *.
    cbn [length] in Hd.
    destruct (add_code m done rows t (N.to_nat l) v) as (rows1 & t1 & lf & ps & E1 & E2 & E3 & HI1);
      auto; try lia.
    { intros q Hq Hl Ha. apply HA; auto. exists (code_of (l, v)).
      split; [now left|]. split; [exact Hq|]. unfold code_of. now rewrite bits_of_length. }
    destruct (IH (done ++ [bits_of (N.to_nat l) v]) rows1 t1) as (rows' & t' & E & HI'); auto.
    { rewrite app_length. simpl. lia. }
    { intros q (c & Hc & Hq) Ha. apply HA; auto. exists c. split; [now right|exact Hq]. }
    exists rows', t'. cbn [flatten_codings map fst]. rewrite N2Nat.id in E1, E2. rewrite E1. cbn [bind].
    rewrite E2. cbn [bind]. rewrite E3. cbn [bind].
    rewrite app_length in E. cbn [length] in E.
    replace (N.of_nat (length done) + 1) with (N.of_nat (length done + 1)) by lia.
    split; [exact E|]. rewrite <- app_assoc in HI'. exact HI'.
Qed.

Lemma Inv_init : A [] -> Inv [] [[]] [blank].
Proof.
  intros HA. constructor; auto.
  - constructor; auto using blank_length.
  - constructor; [intros []|constructor].
  - intros p ch Hch [He|[]]. symmetry in He. apply app_eq_nil in He. destruct He as [-> ->]. now left.
  - intros p [<-|[]]. now exists 0%nat.
  - intros p (c & [] & _).
  - intros i p ch Hi Hch. destruct i as [|[|i]]; try discriminate. injection Hi as <-.
    exists None, None, 0. unfold get. simpl nth_error at 1. cbv iota.
    rewrite nth_blank by now apply val_chunk. split; [reflexivity|]. split.
    + intros [He|[]]. simpl in He. subst ch. simpl in Hch. lia.
    + split; [reflexivity|]. intros c [].
Qed.

(* ------------------------------------------------------------------ *)
(* From the invariant to the walk. *)
Lemma walk_sym_of cs : prefix_free_codes cs -> forall ch p k c,
  nth_error cs k = Some c -> prefix c (p ++ ch) -> prefix p c -> (length p < length c)%nat ->
  walk cs p ch (Symbol k (length p + length ch - length c)).
Proof.
  intros Hpf. induction ch as [|b ch IH]; intros p k c Hk Hc Hp Hl.
  - rewrite app_nil_r in Hc. apply prefix_length in Hc. lia.
  - destruct (Nat.eq_dec (length c) (S (length p))) as [He|Hne].
    + assert (c = p ++ [b]).
      { destruct Hc as [x Hx]. change (b :: ch) with ([b] ++ ch) in Hx. rewrite app_assoc in Hx.
        symmetry in Hx. apply app_inj_len in Hx; [tauto|]. rewrite app_length; simpl; lia. }
      subst c. replace (length p + length (b :: ch) - length (p ++ [b]))%nat with (length ch)
        by (rewrite app_length; simpl; lia).
      now constructor.
    + change (b :: ch) with ([b] ++ ch) in Hc. rewrite app_assoc in Hc.
      assert (Hp' : prefix (p ++ [b]) c).
      { eapply prefix_total; [eexists; reflexivity|exact Hc|]. rewrite app_length; simpl; lia. }
      apply walk_step.
      * intros Hi. apply In_nth_error in Hi. destruct Hi as [j Hj].
        pose proof (Hpf _ _ _ _ Hj Hk Hp') as ->.
        assert (c = p ++ [b]) by congruence. subst c. rewrite app_length in Hne; simpl in Hne; lia.
      * replace (length p + length (b :: ch) - length c)%nat
          with (length (p ++ [b]) + length ch - length c)%nat by (rewrite app_length; simpl; lia).
        apply IH; auto. rewrite app_length; simpl; lia.
Qed.

Lemma walk_none cs : forall ch p r,
  (forall c, In c cs -> ~ (prefix c (p ++ ch) /\ (length p < length c)%nat)) ->
  walk cs (p ++ ch) [] r -> walk cs p ch r.
Proof.
  induction ch as [|b ch IH]; intros p r Hn Hw.
  - now rewrite app_nil_r in Hw.
  - apply walk_step.
    + intros Hi. apply (Hn _ Hi). split.
      * exists ch. now rewrite <- app_assoc.
      * rewrite app_length; simpl; lia.
    + apply IH; [|now rewrite <- app_assoc].
      intros c Hc [Hp Hl]. apply (Hn c Hc). rewrite <- app_assoc in Hp. split; [exact Hp|].
      rewrite app_length in Hl; simpl in Hl; lia.
Qed.

Lemma Inv_represents cs rows t :
  prefix_free_codes cs -> Inv cs rows t ->
  (forall p, A p -> chunk_node sp cs p) -> represents sp cs t.
Proof.
  intros Hpf HI HAn. pose proof HI as [Hlen Hsh Hroot Hnd Hcl Hal Hfull HA Hcell].
  exists rows. split; [now symmetry|]. split; [exact Hroot|]. split; [exact Hnd|]. split.
  { intros p. split.
    - intros Hp. apply HAn. rewrite Forall_forall in HA. auto.
    - intros [->|[Hi Ha]]; [eapply nth_error_In; eauto|now apply Hfull]. }
  split; [exact Hsh|].
  intros i p ch row Hi Hrow Hch.
  destruct (Hcell i p ch Hi Hch) as (n & s & l & Hg & Hn & Hs).
  unfold get in Hg. change (@nth_error (list cell) t i = Some row) in Hrow. rewrite Hrow in Hg. exists (n, s, l).
  assert (Hpi : In p rows) by (eapply nth_error_In; eauto).
  assert (Hnode : In (p ++ ch) rows <-> inner cs (p ++ ch)).
  { split.
    - intros Hq. rewrite Forall_forall in HA. apply HA, HAn in Hq.
      destruct Hq as [Hq|[Hq _]]; [|exact Hq].
      apply app_eq_nil in Hq. destruct Hq as [_ ->]. simpl in Hch. lia.
    - intros Hq. apply Hfull; auto. destruct (Hal _ Hpi) as [k Hk]. exists (S k).
      rewrite app_length, Hk, Hch. simpl. lia. }
  destruct s as [k|]; simpl in Hs.
  - destruct Hs as (c & Hc & [Hpc Hlc] & ->).
    exists (Symbol (N.to_nat k) (length p + length ch - length c)). split; [exact Hg|]. split.
    + apply walk_sym_of; auto. eapply prefix_total; [eexists; reflexivity|exact Hpc|lia].
    + simpl. rewrite N2Nat.id, app_length. f_equal.
      destruct n as [j|]; [|reflexivity]. exfalso. simpl in Hn. apply nth_error_In in Hn.
      apply Hnode in Hn. destruct Hn as (c' & Hc' & Hpc' & Hlc').
      apply In_nth_error in Hc'. destruct Hc' as [k' Hk'].
      assert (Hpp : prefix c c').
      { destruct Hpc as [x Hx], Hpc' as [y Hy]. exists (x ++ y). rewrite Hy, Hx. now rewrite app_assoc. }
      pose proof (Hpf _ _ _ _ Hc Hk' Hpp). subst k'.
      assert (c' = c) by congruence. subst c'. apply prefix_length in Hpc. lia.
  - destruct Hs as [-> Hs].
    destruct n as [j|]; simpl in Hn.
    + exists (Node (p ++ ch)). split; [exact Hg|]. split.
      * apply walk_none; [exact Hs|]. constructor. apply Hnode. eapply nth_error_In; eauto.
      * exists (N.to_nat j). now rewrite N2Nat.id.
    + exists Dead. split; [exact Hg|]. split; [|reflexivity].
      apply walk_none; [exact Hs|]. constructor. now rewrite <- Hnode.
Qed.
End Flat.

(* Speeds are 1..5. *)
Lemma flatten_represents m s codings :
  let sp := N.to_nat (speed_bits s) in
  let cs := map (fun c => bits_of (N.to_nat (fst c)) (snd c)) codings in
  Forall (fun c => 1 <= fst c <= 32 - 32 mod speed_bits s /\ snd c < 2 ^ fst c) codings ->
  N.of_nat (length codings) <= 65536 ->
  prefix_free_codes cs ->
  (forall nodes, NoDup nodes -> Forall (chunk_node sp cs) nodes -> (length nodes <= 256)%nat) ->
  exists t, flatten m codings s = Ok t /\ represents sp cs t.
Proof.
  intros sp cs Hf Hlen Hpf Hb.
  assert (Hsp : (0 < sp)%nat) by (unfold sp; destruct s; simpl; lia).
  assert (Hspn : N.of_nat sp = speed_bits s) by (unfold sp; now rewrite N2Nat.id).
  destruct (flatten_codings_ok sp Hsp (chunk_node sp cs) Hb m codings [] [[]] [blank sp])
    as (rows & t & E & HI).
  - unfold sp. destruct s; simpl; lia.
  - rewrite Forall_forall in *. intros c Hc. destruct (Hf c Hc) as [[H1 H2] H3].
    split; [exact H1|]. split; [exact H3|].
    apply (paths_ok sp Hsp (chunk_node sp cs) Hb m (N.to_nat (fst c)) (snd c));
      [lia|rewrite N2Nat.id; exact H3|].
    intros n Hn. rewrite <- Hspn in H2.
    assert (Hd : 32 = N.of_nat sp * (32 / N.of_nat sp) + 32 mod N.of_nat sp)
      by (apply N.div_mod; lia).
    set (q := 32 / N.of_nat sp) in *. set (r := 32 mod N.of_nat sp) in *.
    assert (n <= N.to_nat q)%nat by nia. nia.
  - simpl. lia.
  - apply Inv_init; auto. now left.
  - intros q Hq Ha. right. auto.
  - exists t. split.
    + unfold flatten. rewrite <- Hspn. exact E.
    + eapply Inv_represents; eauto.
Qed.
