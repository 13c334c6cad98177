(* C122: what a flattened table says about the code it was made from. *)
From Verif Require Import Base HuffTables HuffAsset HuffSpec HuffModel HuffTree HuffCode HuffFlat HuffFlatPanic HuffFlatIff PropsFlat HuffMatrix HuffCount.
Open Scope list_scope.
Open Scope N_scope.

(* The bit strings of a list of (length, value) pairs. *)
Definition strings (codings : list (N * N)) : list (list bool) :=
  map (fun c => bits_of (N.to_nat (fst c)) (snd c)) codings.

(* The tables `flatten` is meant for (C10): codes of at least 1 and at most 32 bits (30 at
   three and five bits per chunk), none a prefix of another, and no more than 256 rows. *)
Definition fit (s : speed) (codings : list (N * N)) : Prop :=
  Forall (fun c => 1 <= fst c <= 32 - 32 mod speed_bits s /\ snd c < 2 ^ fst c) codings /\
  prefix_free_codes (strings codings) /\
  (forall nodes, NoDup nodes -> Forall (chunk_node (N.to_nat (speed_bits s)) (strings codings)) nodes ->
     (length nodes <= 256)%nat).

Lemma fit_represents m s a t : fit s a -> flatten m a s = Ok t ->
  represents (N.to_nat (speed_bits s)) (strings a) t.
Proof.
  intros (H1 & H2 & H3) E. destruct (C10_flatten_represents m s a H1 H2 H3) as (t' & E' & R).
  assert (t' = t) by congruence. subst t'. exact R.
Qed.
Lemma speed_pos s : (0 < N.to_nat (speed_bits s))%nat.
Proof. destruct s; simpl; lia. Qed.
Lemma fit_nonempty s a : fit s a -> ~ In [] (strings a).
Proof.
  intros (H1 & _) Hin. apply in_map_iff in Hin. destruct Hin as (c & E & Hc).
  rewrite Forall_forall in H1. specialize (H1 c Hc).
  apply (f_equal (@length bool)) in E. rewrite bits_of_length in E. simpl in E. lia.
Qed.
Lemma strings_inj a b : Forall (fun c => snd c < 2 ^ fst c) a -> Forall (fun c => snd c < 2 ^ fst c) b ->
  strings a = strings b -> a = b.
Proof.
  intros Ha. revert b. induction Ha as [|[l v] a Hv Ha IH]; intros [|[l' v'] b] Hb E;
    try discriminate E; [reflexivity|].
  inversion Hb as [|x y Hv' Hb']; subst. cbn [fst snd strings map] in *. injection E as E1 E2.
  assert (El : l = l').
  { apply (f_equal (@length bool)) in E1. rewrite !bits_of_length in E1. lia. }
  subst l'. f_equal; [|now apply IH]. f_equal.
  rewrite <- (N2Nat.id l) in Hv, Hv'.
  rewrite <- (val_bits_of_small _ _ Hv), <- (val_bits_of_small _ _ Hv'). now rewrite E1.
Qed.

(* The matrix determines the table, symbol by symbol: two tables with one matrix are the
   same table, whatever build flattened them. *)
Theorem C122_matrix_determines_code : forall m1 m2 s a b t,
  fit s a -> fit s b -> flatten m1 a s = Ok t -> flatten m2 b s = Ok t -> a = b.
Proof.
  intros m1 m2 s a b t Fa Fb Ea Eb.
  apply strings_inj.
  - destruct Fa as [H _]. revert H. apply Forall_impl. tauto.
  - destruct Fb as [H _]. revert H. apply Forall_impl. tauto.
  - eapply (same_code (N.to_nat (speed_bits s)) (speed_pos s)).
    + apply Fa.
    + apply Fb.
    + exact (fit_nonempty _ _ Fa).
    + exact (fit_nonempty _ _ Fb).
    + exact (fit_represents _ _ _ _ Fa Ea).
    + exact (fit_represents _ _ _ _ Fb Eb).
Qed.
Print Assumptions C122_matrix_determines_code.

(* A matrix has no blank cell exactly when the code is complete: every bit string at least
   as long as the longest code begins with a code. *)
Theorem C122_no_blank_iff_complete : forall m s a t, fit s a -> flatten m a s = Ok t ->
  ((forall row cell, In row t -> In cell row -> fst cell <> (None, None)) <->
   (forall bits, (forall c, In c (strings a) -> (length c <= length bits)%nat) ->
      exists c rest, In c (strings a) /\ bits = c ++ rest)).
Proof.
  intros m s a t F E.
  pose proof (no_blank_complete (N.to_nat (speed_bits s)) (speed_pos s) (strings a) t
    (proj1 (proj2 F)) (fit_nonempty _ _ F) (fit_represents _ _ _ _ F E)) as H.
  unfold blank_cell, complete in H. split.
  - intros Hb bits Hl. destruct (proj1 H Hb bits Hl) as (c & Hc & rest & Hr). eauto.
  - intros Hc. apply H. intros bits Hl. destruct (Hc bits Hl) as (c & rest & Hi & Hr).
    exists c. split; [exact Hi|now exists rest].
Qed.
Print Assumptions C122_no_blank_iff_complete.

(* So blank cells do not depend on the speed: one speed without them means none has any. *)
Theorem C122_blank_at_every_speed : forall m1 m2 s1 s2 a t1 t2, fit s1 a -> fit s2 a ->
  flatten m1 a s1 = Ok t1 -> flatten m2 a s2 = Ok t2 ->
  (forall row cell, In row t1 -> In cell row -> fst cell <> (None, None)) ->
  forall row cell, In row t2 -> In cell row -> fst cell <> (None, None).
Proof.
  intros m1 m2 s1 s2 a t1 t2 F1 F2 E1 E2 H1.
  apply (C122_no_blank_iff_complete m2 s2 a t2 F2 E2).
  now apply (C122_no_blank_iff_complete m1 s1 a t1 F1 E1).
Qed.
Print Assumptions C122_blank_at_every_speed.

(* A table of codes of at most 30 bits that fits one bit per chunk fits every speed. *)
Theorem C122_one_bit_fits_all : forall a, fit OneBit a -> (forall c, In c a -> fst c <= 30) ->
  forall m s, fit s a /\ exists t, flatten m a s = Ok t /\
    represents (N.to_nat (speed_bits s)) (strings a) t.
Proof.
  intros a (H1 & H2 & H3) Hl m s.
  assert (F : fit s a).
  { split; [|split; [exact H2|]].
    - apply Forall_forall. intros c Hc. rewrite Forall_forall in H1. destruct (H1 c Hc) as [H H'].
      specialize (Hl c Hc). split; [|exact H']. split; [tauto|].
      etransitivity; [exact Hl|]. destruct s; discriminate.
    - intros nodes Hn Hf. apply H3; [exact Hn|]. revert Hf. apply Forall_impl.
      intros p [Hp|[Hp _]]; [now left|right]. split; [exact Hp|].
      exists (length p). simpl. now rewrite Nat.mul_1_r. }
  split; [exact F|]. destruct F as (F1 & F2 & F3). exact (C10_flatten_represents m s a F1 F2 F3).
Qed.
Print Assumptions C122_one_bit_fits_all.

(* ------------------------------------------------------------------ *)
(* The documentation's code A=00 B=01 C=100 D=101 E=11 is complete; without its last code
   it is not, and the matrix shows where: a blank cell. *)
Lemma doc_fit s : fit s doc_code.
Proof.
  apply C122_one_bit_fits_all; [|intros c Hc; repeat (destruct Hc as [<-|Hc]; [discriminate|]); contradiction|exact Debug].
  split; [|split].
  - repeat constructor; simpl; try discriminate; reflexivity.
  - apply pf_check_ok. reflexivity.
  - apply nodes_bound; [simpl; lia|reflexivity].
Qed.
Example C122_doc : forall s,
  fit s doc_code /\ fit s (firstn 4 doc_code) /\
  flatten Debug (firstn 4 doc_code) TwoBits =
    Ok [[(None, Some 0, 0); (None, Some 1, 0); (Some 1, None, 0); (None, None, 0)];
        [(None, Some 2, 1); (None, Some 2, 1); (None, Some 3, 1); (None, Some 3, 1)]].
Proof.
  intros s. split; [apply doc_fit|]. split; [|reflexivity].
  apply C122_one_bit_fits_all; [|intros c Hc; repeat (destruct Hc as [<-|Hc]; [discriminate|]); contradiction|exact Debug].
  split; [|split].
  - repeat constructor; simpl; try discriminate; reflexivity.
  - apply pf_check_ok. reflexivity.
  - apply nodes_bound; [simpl; lia|reflexivity].
Qed.

(* A table that is not prefix-free can share its matrix with another one: the later code
   overwrites the earlier, and nothing is reported. *)
Theorem C122_overlapping_codes :
  exists m s a b t, a <> b /\ flatten m a s = Ok t /\ flatten m b s = Ok t /\
    Forall (fun c => 1 <= fst c <= 32 - 32 mod speed_bits s /\ snd c < 2 ^ fst c) a /\
    Forall (fun c => 1 <= fst c <= 32 - 32 mod speed_bits s /\ snd c < 2 ^ fst c) b.
Proof.
  exists Debug, TwoBits, [(1, 0); (1, 0)], [(2, 1); (1, 0)]. eexists.
  split; [discriminate|]. split; [vm_compute; reflexivity|]. split; [vm_compute; reflexivity|].
  split; repeat constructor; simpl; try discriminate; reflexivity.
Qed.
Print Assumptions C122_overlapping_codes.

(* ------------------------------------------------------------------ *)
(* How many codes a complete table may have.  One bit per chunk: exactly 257 at most, as
   each row is a branching of the code and a complete code of k codes branches k - 1 times. *)
Definition covers (cs : list (list bool)) : Prop :=
  forall bits, (forall c, In c cs -> (length c <= length bits)%nat) ->
    exists c rest, In c cs /\ bits = c ++ rest.

Lemma covers_complete cs : covers cs -> complete cs.
Proof. intros H bits Hl. destruct (H bits Hl) as (c & rest & Hc & E). exists c. split; [exact Hc|now exists rest]. Qed.

Lemma lengths_nonempty a : Forall (fun c => 1 <= fst c <= 32 /\ snd c < 2 ^ fst c) a -> ~ In [] (strings a).
Proof.
  intros H1 Hin. apply in_map_iff in Hin. destruct Hin as (c & E & Hc).
  rewrite Forall_forall in H1. specialize (H1 c Hc).
  apply (f_equal (@length bool)) in E. rewrite bits_of_length in E. simpl in E. lia.
Qed.

Lemma covers_fit a : Forall (fun c => 1 <= fst c <= 32 /\ snd c < 2 ^ fst c) a ->
  prefix_free_codes (strings a) -> covers (strings a) -> (length a <= 257)%nat -> fit OneBit a.
Proof.
  intros H1 H2 H3 Hl. split; [exact H1|]. split; [exact H2|].
  destruct (complete_nodes (strings a) H2 (lengths_nonempty a H1) (covers_complete _ H3)) as (ns & Hn & Hi & Hc).
  unfold strings in Hc at 1. rewrite map_length in Hc.
  intros nodes Nn Hf. transitivity (length ns); [|lia].
  apply NoDup_incl_length; [exact Nn|]. intros p Hp. apply Hi.
  rewrite Forall_forall in Hf. exact (Hf p Hp).
Qed.

Theorem C122_complete_one_bit_iff : forall m a,
  Forall (fun c => 1 <= fst c <= 32 /\ snd c < 2 ^ fst c) a ->
  prefix_free_codes (strings a) -> covers (strings a) ->
  ((exists t, flatten m a OneBit = Ok t /\ represents 1 (strings a) t) <-> (length a <= 257)%nat).
Proof.
  intros m a H1 H2 H3. split.
  - intros H. apply (C10_flatten_represents_iff m OneBit a) in H; [|revert H1; apply Forall_impl; tauto|exact H2].
    destruct H as [_ H].
    destruct (complete_nodes (strings a) H2 (lengths_nonempty a H1) (covers_complete _ H3)) as (ns & Hn & Hi & Hc).
    unfold strings in Hc at 1. rewrite map_length in Hc.
    specialize (H ns Hn). enough (length ns <= 256)%nat by lia. apply H.
    apply Forall_forall. intros p Hp. now apply Hi.
  - intros Hl. destruct (covers_fit a H1 H2 H3 Hl) as (F1 & F2 & F3).
    exact (C10_flatten_represents m OneBit a F1 F2 F3).
Qed.
Print Assumptions C122_complete_one_bit_iff.

(* With codes of at most 30 bits, 257 codes are fine at every speed. *)
Theorem C122_complete_every_speed : forall m s a,
  Forall (fun c => 1 <= fst c <= 30 /\ snd c < 2 ^ fst c) a ->
  prefix_free_codes (strings a) -> covers (strings a) -> (length a <= 257)%nat ->
  exists t, flatten m a s = Ok t /\ represents (N.to_nat (speed_bits s)) (strings a) t.
Proof.
  intros m s a H1 H2 H3 Hl. apply C122_one_bit_fits_all.
  - apply covers_fit; auto. revert H1. apply Forall_impl. intros c [[A B] C].
    split; [|exact C]. split; [exact A|]. etransitivity; [exact B|]. discriminate.
  - intros c Hc. rewrite Forall_forall in H1. specialize (H1 c Hc). tauto.
Qed.
Print Assumptions C122_complete_every_speed.

(* The one-bit matrix of a complete code has one row less than there are codes. *)
Theorem C122_one_bit_rows : forall m a t, fit OneBit a -> covers (strings a) ->
  flatten m a OneBit = Ok t -> length a = S (length t).
Proof.
  intros m a t F Hc E. pose proof (fit_represents m OneBit a t F E) as R.
  destruct (complete_nodes (strings a) (proj1 (proj2 F)) (fit_nonempty _ _ F) (covers_complete _ Hc)) as (ns & Hn & Hi & Hl).
  unfold strings in Hl at 1. rewrite map_length in Hl.
  destruct R as (rows & Hlen & _ & Hnd & Hin & _). rewrite Hl. f_equal.
  transitivity (length rows); [|exact Hlen].
  apply Nat.le_antisymm; apply NoDup_incl_length; auto; intros p Hp.
  - apply Hin. now apply Hi.
  - apply Hi. now apply Hin.
Qed.
Print Assumptions C122_one_bit_rows.

(* ------------------------------------------------------------------ *)
(* The RFC 7541 code is complete, so no shipped speed has a blank cell; its 257 codes are
   just as many as a complete code may have. *)
Lemma rfc_strings : strings ENCODE_TABLE = rfc_codes.
Proof.
  apply nth_error_ext'. intros k. unfold strings. rewrite nth_error_map.
  destruct (Nat.le_gt_cases k 256) as [Hk|Hk].
  - pose proof (table_is_rfc (N.of_nat k) ltac:(lia)) as H. rewrite Nat2N.id in H. rewrite H.
    cbn [option_map fst snd]. rewrite Nat2N.id, bits_of_val. unfold code. rewrite Nat2N.id.
    symmetry. apply nth_error_nth'. change (length rfc_codes) with 257%nat. lia.
  - rewrite (proj2 (nth_error_None ENCODE_TABLE k)) by (rewrite table_length; lia).
    symmetry. apply nth_error_None. change (length rfc_codes) with 257%nat. lia.
Qed.
Lemma rfc_lengths : Forall (fun c => 1 <= fst c <= 30 /\ snd c < 2 ^ fst c) ENCODE_TABLE.
Proof.
  apply Forall_forall. intros c Hc. apply In_nth_error in Hc. destruct Hc as [k Hk].
  assert (Hl : (k < 257)%nat) by (rewrite <- table_length; apply nth_error_Some; congruence).
  pose proof (table_is_rfc (N.of_nat k) ltac:(lia)) as H. rewrite Nat2N.id, Hk in H.
  pose proof (code_length (N.of_nat k) ltac:(lia)) as HL.
  injection H as ->. cbn [fst snd]. split; [lia|]. apply val_lt.
Qed.
Lemma rfc_prefix_free : prefix_free_codes (strings ENCODE_TABLE).
Proof.
  rewrite rfc_strings. intros i j a b Hi Hj Hp.
  assert (Li : (i < 257)%nat) by (change 257%nat with (length rfc_codes); apply nth_error_Some; congruence).
  assert (Lj : (j < 257)%nat) by (change 257%nat with (length rfc_codes); apply nth_error_Some; congruence).
  apply Nat2N.inj. apply prefix_free; [lia|lia|]. unfold code. rewrite !Nat2N.id.
  now rewrite (nth_error_nth _ _ [] Hi), (nth_error_nth _ _ [] Hj).
Qed.
Lemma rfc_covers bits : (30 <= length bits)%nat -> exists c rest, In c rfc_codes /\ bits = c ++ rest.
Proof.
  intros Hl. destruct (HuffCode.complete bits Hl) as (a & Ha & rest & E).
  exists (code a), rest. split; [|exact E]. unfold code. apply nth_In.
  change (length rfc_codes) with 257%nat. lia.
Qed.
Lemma rfc_covers_all : covers (strings ENCODE_TABLE).
Proof.
  rewrite rfc_strings. intros bits Hl. apply rfc_covers.
  assert (H : In (code EOS) rfc_codes).
  { unfold code. apply nth_In. change (length rfc_codes) with 257%nat.
    assert (X : N.to_nat EOS = 256%nat) by reflexivity. lia. }
  specialize (Hl _ H). rewrite code_eos, repeat_length in Hl. exact Hl.
Qed.
Lemma rfc_fit s : fit s ENCODE_TABLE.
Proof.
  pose proof rfc_lengths as H. apply C122_one_bit_fits_all; [| |exact Debug].
  - apply covers_fit; [|exact rfc_prefix_free|exact rfc_covers_all|rewrite table_length; lia].
    revert H. apply Forall_impl. intros c [[A B] C].
    split; [|exact C]. split; [exact A|]. etransitivity; [exact B|]. discriminate.
  - intros c Hc. rewrite Forall_forall in H. specialize (H c Hc). tauto.
Qed.

Theorem C122_rfc_complete :
  (forall bits, (30 <= length bits)%nat -> exists c rest, In c rfc_codes /\ bits = c ++ rest) /\
  (forall m s t, flatten m ENCODE_TABLE s = Ok t ->
     forall row cell, In row t -> In cell row -> fst cell <> (None, None)).
Proof.
  split; [exact rfc_covers|]. intros m s t E.
  exact (proj2 (C122_no_blank_iff_complete m s ENCODE_TABLE t (rfc_fit s) E) rfc_covers_all).
Qed.
Print Assumptions C122_rfc_complete.

Example C122_rfc_257 : length ENCODE_TABLE = 257%nat /\ covers (strings ENCODE_TABLE) /\
  (forall s, fit s ENCODE_TABLE) /\
  (forall m t, flatten m ENCODE_TABLE OneBit = Ok t -> length t = 256%nat).
Proof.
  split; [exact table_length|]. split; [exact rfc_covers_all|]. split; [exact rfc_fit|]. intros m t E.
  pose proof (C122_one_bit_rows m ENCODE_TABLE t (rfc_fit OneBit) rfc_covers_all E) as H.
  rewrite table_length in H. lia.
Qed.
