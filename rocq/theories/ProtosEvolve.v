(* Readers that know only some fields of a message, or get them in another order (C88). *)
From Verif Require Import Base Leb ProtosModel ProtosSpec ProtosApi ProtosNum ProtosEnc ProtosConv ProtosDec ProtosDerived ProtosMore ProtosLength.
From Coq Require Import Permutation.
Open Scope N_scope.

(* ------------------------------------------------------------------ *)
(* Vocabulary: the fields with a tag of the set [known], of a message to be encoded and of
   a decoded one, in order. *)
Definition wanted (known : N -> bool) (fs : list (N * encoder_lit)) : list (N * encoder_lit) :=
  filter (fun f => known (fst f)) fs.
Definition seen (known : N -> bool) (ws : list pfield) : list pfield :=
  filter (fun w => known (fst (fst w))) ws.

(* [message_reads m fs bs ws]: encode writes the fields fs as the octets bs, and a new
   decoder makes ws of them. *)
Definition message_reads (m : mode) (fs : list (N * encoder_lit)) (bs : list N) (ws : list pfield) : Prop :=
  (forall pre, encode_message fs (vec_sink pre) = (vec_sink (pre ++ bs), Ok (N.of_nat (length bs)))) /\
  (forall dst, decode_fully m pdecoder_default bs dst = ((pdecoder_default, [], dst ++ ws), Ok tt)).

(* ------------------------------------------------------------------ *)
Lemma packed_same {A} (W : A -> list N -> Prop) vs p q :
  (forall v a b, W v a -> W v b -> a = b) -> packed W vs p -> packed W vs q -> p = q.
Proof.
  intros HW (ps & Hp & ->) (qs & Hq & ->). f_equal. revert qs Hq.
  induction Hp as [|v a vs ps Ha Hp IH]; intros qs Hq; inversion Hq; subst; [reflexivity|]. f_equal; eauto.
Qed.
Lemma w_int_same v a b : w_int v a -> w_int v b -> a = b.
Proof.
  intros (n & Hn & Ha) (k & Hk & Hb). apply twos_unique in Hn. apply twos_unique in Hk. subst n k. eapply shortest_unique; eauto.
Qed.
Lemma w_sfixed_same k w v a b : w_sfixed k w v a -> w_sfixed k w v b -> a = b.
Proof.
  intros (n & Hn & Ha) (j & Hj & Hb). apply twos_unique in Hn. apply twos_unique in Hj. subst n j. eapply little_unique; eauto.
Qed.

Lemma lit_wire_same l t p t' p' : lit_wire l t p -> lit_wire l t' p' -> t = t' /\ p = p'.
Proof.
  intros H H'. destruct l; cbn [lit_wire] in *; destruct H as [-> H], H' as [-> H']; (split; [reflexivity|]);
    first [ now subst
          | exact (shortest_unique _ _ _ H H')
          | exact (w_int_same _ _ _ H H')
          | exact (little_unique _ _ _ _ H H')
          | exact (w_sfixed_same _ _ _ _ _ H H')
          | refine (packed_same _ _ _ _ _ H H'); intros v0 a b A B; exact (shortest_unique _ _ _ A B)
          | refine (packed_same _ _ _ _ _ H H'); intros v0 a b A B; exact (w_int_same _ _ _ A B)
          | refine (packed_same _ _ _ _ _ H H'); intros v0 a b A B; exact (little_unique _ _ _ _ A B)
          | refine (packed_same _ _ _ _ _ H H'); intros v0 a b A B; exact (w_sfixed_same _ _ _ _ _ A B) ].
Qed.

Lemma carries_same f w w' : carries f w -> carries f w' -> w = w'.
Proof.
  destruct w as [[tag t] p], w' as [[tag' t'] p']. intros [E H] [E' H']. cbn [fst snd] in *.
  destruct (lit_wire_same _ _ _ _ _ H H') as [-> ->]. congruence.
Qed.
Lemma carried_same fs ws ws' : Forall2 carries fs ws -> Forall2 carries fs ws' -> ws = ws'.
Proof.
  intros H. revert ws'. induction H as [|f w fs ws Hf H IH]; intros ws' H'; inversion H'; subst; [reflexivity|].
  f_equal; [eapply carries_same; eauto | auto].
Qed.

Lemma carried_seen known fs ws : Forall2 carries fs ws -> Forall2 carries (wanted known fs) (seen known ws).
Proof.
  induction 1 as [|f w fs ws Hf H IH]; [constructor|]. unfold wanted, seen in *. cbn [filter].
  destruct Hf as [E Hw]. rewrite E. destruct (known (fst f)); [constructor; [split; auto|exact IH]|exact IH].
Qed.

Lemma reads_carried m fs bs ws : Forall good_field fs -> message_reads m fs bs ws -> Forall2 carries fs ws.
Proof.
  intros Hg [He Hd]. destruct (message_round_trip_fully m fs Hg) as (bs' & ws' & He' & Hd' & Hc).
  pose proof (He []) as E. rewrite (He' []) in E. injection E as E _. cbn [app] in E. subst bs'.
  pose proof (Hd []) as D. rewrite (Hd' []) in D. injection D as D. cbn [app] in D. subst ws'.
  clear - Hc. induction Hc as [|f w fs ws [Hf _] Hc IH]; constructor; auto.
Qed.

Lemma reads_exists m fs : Forall good_field fs -> exists bs ws, message_reads m fs bs ws.
Proof.
  intros Hg. destruct (message_round_trip_fully m fs Hg) as (bs & ws & He & Hd & _). exists bs, ws. split; auto.
Qed.

(* Fields of unknown tags do not disturb the others. *)
Theorem unknown_fields m known fs bs ws bs' ws' : Forall good_field fs ->
  message_reads m fs bs ws -> message_reads m (wanted known fs) bs' ws' -> seen known ws = ws'.
Proof.
  intros Hg H H'. assert (Hg' : Forall good_field (wanted known fs)).
  { unfold wanted. rewrite Forall_forall in *. intros f Hf. apply filter_In in Hf as [Hf _]. auto. }
  eapply carried_same; [|eapply reads_carried; eassumption]. apply carried_seen. eapply reads_carried; eauto.
Qed.

(* The order of fields of different tags does not matter. *)
Theorem any_order m fs bs ws fs' bs' ws' : Forall good_field fs -> Forall good_field fs' ->
  (forall tag, wanted (N.eqb tag) fs = wanted (N.eqb tag) fs') ->
  message_reads m fs bs ws -> message_reads m fs' bs' ws' ->
  forall tag, seen (N.eqb tag) ws = seen (N.eqb tag) ws'.
Proof.
  intros Hg Hg' Hp H H' tag. apply (carried_same (wanted (N.eqb tag) fs)).
  - apply carried_seen. exact (reads_carried m fs bs ws Hg H).
  - rewrite Hp. apply carried_seen. exact (reads_carried m fs' bs' ws' Hg' H').
Qed.

(* One tag: the values, in the order they were encoded. *)
Theorem by_tag m fs bs ws : Forall good_field fs -> message_reads m fs bs ws ->
  forall tag, Forall2 (fun f w => carries f w /\ reads_back m (snd f) (snd w)) (wanted (N.eqb tag) fs) (seen (N.eqb tag) ws).
Proof.
  intros Hg H tag. pose proof (carried_seen (N.eqb tag) _ _ (reads_carried m fs bs ws Hg H)) as Hc.
  assert (Hg' : Forall good_field (wanted (N.eqb tag) fs)).
  { unfold wanted. rewrite Forall_forall in *. intros f Hf. apply filter_In in Hf as [Hf _]. auto. }
  clear H Hg. induction Hc as [|f w fs' ws' Hfw Hc IH]; constructor.
  - split; [exact Hfw|]. destruct Hfw as [_ Hw]. inversion Hg' as [|x y (Ht & Hl & Hs) _]; subst. eapply reads_back_all; eauto.
  - inversion Hg'; subst. auto.
Qed.

(* The same fields in any order take the same number of octets. *)
Theorem reordered_size m fs bs ws fs' bs' ws' : Forall good_field fs -> Permutation fs fs' ->
  message_reads m fs bs ws -> message_reads m fs' bs' ws' -> length bs = length bs' /\ Permutation ws ws'.
Proof.
  intros Hg Hp H H'. assert (Hg' : Forall good_field fs').
  { rewrite Forall_forall in *. intros f Hf. apply Hg. eapply Permutation_in; [symmetry; exact Hp|exact Hf]. }
  assert (L : forall fs bs ws, Forall good_field fs -> message_reads m fs bs ws -> N.of_nat (length bs) = message_octets fs).
  { clear. intros fs bs ws Hg [He _]. destruct (message_size fs) as (b & Lb & Eb & _).
    - eapply Forall_impl; [|exact Hg]. intros f. apply sizable_good.
    - pose proof (He []) as E. rewrite (Eb []) in E. injection E as E _. cbn [app] in E. now subst b. }
  split.
  - apply Nat2N.inj. rewrite (L _ _ _ Hg H), (L _ _ _ Hg' H'). unfold message_octets, total.
    clear - Hp. induction Hp; cbn [map fold_right]; lia.
  - apply reads_carried in H; [|exact Hg]. apply reads_carried in H'; [|exact Hg']. clear - Hp H H'.
    revert ws ws' H H'. induction Hp as [|f fs fs' Hp IH|f g fs|fs1 fs2 fs3 H1 IH1 H2 IH2]; intros ws ws' H H'.
    + inversion H; inversion H'; subst. constructor.
    + inversion H as [|? w ? wr A A']; inversion H' as [|? w' ? wr' B B']; subst.
      rewrite (carries_same _ _ _ A B). constructor. now apply IH.
    + inversion H as [|? w ? wr A A']; subst. inversion A' as [|? w2 ? wr2 A2 A2']; subst.
      inversion H' as [|? x ? xr B B']; subst. inversion B' as [|? x2 ? xr2 B2 B2']; subst.
      rewrite (carries_same _ _ _ A B2), (carries_same _ _ _ A2 B), (carried_same _ _ _ A2' B2'). constructor.
    + assert (exists ws2, Forall2 carries fs2 ws2) as [ws2 Hm].
      { clear - H H1. revert ws H. induction H1 as [|f fs fs' Hp IH|f g fs|a b c P1 I1 P2 I2]; intros ws H.
        - exists []. constructor.
        - inversion H as [|? w ? wr A A']; subst. destruct (IH _ A') as [r Hr]. exists (w :: r). now constructor.
        - inversion H as [|? w ? wr A A']; subst. inversion A' as [|? w2 ? wr2 A2 A2']; subst.
          exists (w2 :: w :: wr2). repeat (constructor; try assumption).
        - destruct (I1 _ H) as [r Hr]. exact (I2 _ Hr). }
      transitivity ws2; eauto.
Qed.
