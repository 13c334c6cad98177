(* The model of std's UTF-8 validation accepts exactly UTF-8 text. *)
From Verif Require Import Base Leb ProtosModel ProtosSpec.
Open Scope N_scope.

Lemma in_range_spec lo hi b : in_range lo hi b = true <-> lo <= b <= hi.
Proof. unfold in_range. rewrite andb_true_iff, !N.leb_le. reflexivity. Qed.

Lemma in_range_no lo hi b : b < lo \/ hi < b -> in_range lo hi b = false.
Proof. unfold in_range. rewrite andb_false_iff, !N.leb_gt. tauto. Qed.

Lemma in_range_yes lo hi b : lo <= b <= hi -> in_range lo hi b = true.
Proof. apply in_range_spec. Qed.

(* Splitting a code point into groups of six bits. *)
Lemma split6 c : exists q r, c = 64 * q + r /\ r < 64 /\ c / 64 = q /\ c mod 64 = r.
Proof.
  exists (c / 64), (c mod 64). split; [apply N.div_mod; lia|]. split; [apply N.mod_lt; lia|]. auto.
Qed.

Lemma utf8_valid_char c rest : scalar_value c -> utf8_valid (utf8_char c ++ rest) = utf8_valid rest.
Proof.
  intros Hs. unfold utf8_char.
  destruct (N.ltb_spec c 128) as [H1|H1].
  { cbn [app utf8_valid]. now replace (c <? 128) with true by lia. }
  destruct (split6 c) as (q & r & Ec & Hr & Eq & Er).
  destruct (N.ltb_spec c 2048) as [H2|H2].
  { rewrite Eq, Er. cbn [app utf8_valid]. replace (192 + q <? 128) with false by lia.
    rewrite (in_range_yes 194 223), (in_range_yes 128 191) by lia. reflexivity. }
  destruct (split6 q) as (q2 & r2 & Ec2 & Hr2 & Eq2 & Er2).
  assert (E4096 : c / 4096 = q2).
  { change 4096 with (64 * 64). rewrite <- N.div_div by lia. now rewrite Eq, Eq2. }
  destruct (N.ltb_spec c 65536) as [H3|H3].
  { rewrite Eq, Er, Er2, E4096. cbn [app utf8_valid]. replace (224 + q2 <? 128) with false by lia.
    rewrite (in_range_no 194 223) by lia.
    rewrite (in_range_yes 128 191 (128 + r)) by lia.
    destruct (N.eqb_spec (224 + q2) 224) as [E0|E0].
    - rewrite (in_range_yes 160 191) by lia. reflexivity.
    - destruct (N.eqb_spec (224 + q2) 237) as [E1|E1].
      + rewrite (in_range_yes 128 159); [reflexivity|]. destruct Hs; lia.
      + rewrite (in_range_yes 225 239), (in_range_yes 128 191) by lia. reflexivity. }
  destruct (split6 q2) as (q3 & r3 & Ec3 & Hr3 & Eq3 & Er3).
  assert (E262144 : c / 262144 = q3).
  { change 262144 with (4096 * 64). rewrite <- N.div_div by lia. now rewrite E4096, Eq3. }
  assert (Hc : c < 1114112) by (destruct Hs; lia).
  rewrite Eq, Er, Er2, E4096, Er3, E262144. cbn [app utf8_valid].
  replace (240 + q3 <? 128) with false by lia.
  rewrite (in_range_no 194 223) by lia.
  rewrite (in_range_no 225 239) by lia. cbn [andb].
  replace (240 + q3 =? 224) with false by lia. replace (240 + q3 =? 237) with false by lia.
  rewrite (in_range_yes 128 191 (128 + r)), (in_range_yes 128 191 (128 + r2)) by lia.
  destruct (N.eqb_spec (240 + q3) 240) as [E0|E0].
  - rewrite (in_range_yes 144 191) by lia. reflexivity.
  - destruct (N.eqb_spec (240 + q3) 244) as [E1|E1].
    + rewrite (in_range_yes 128 143) by lia. reflexivity.
    + rewrite (in_range_yes 241 243), (in_range_yes 128 191) by lia. reflexivity.
Qed.

Lemma text_cons c bs : scalar_value c -> utf8_text bs -> utf8_text (utf8_char c ++ bs).
Proof. intros Hc (cs & H & ->). exists (c :: cs). split; [now constructor|reflexivity]. Qed.

Lemma div_small_add a b d : b < d -> (d * a + b) / d = a.
Proof. intros H. rewrite N.mul_comm, N.div_add_l by lia. rewrite N.div_small by exact H. lia. Qed.
Lemma mod_small_add a b d : b < d -> (d * a + b) mod d = b.
Proof. intros H. rewrite N.add_comm, N.mul_comm, N.mod_add by lia. now apply N.mod_small. Qed.

Lemma char2 b0 b1 : 194 <= b0 <= 223 -> 128 <= b1 <= 191 ->
  exists c, scalar_value c /\ utf8_char c = [b0; b1].
Proof.
  intros H0 H1. exists (64 * (b0 - 192) + (b1 - 128)). split; [left; lia|]. unfold utf8_char.
  replace (_ <? 128) with false by lia. replace (_ <? 2048) with true by lia.
  rewrite div_small_add, mod_small_add by lia. repeat f_equal; lia.
Qed.

Lemma char3 b0 b1 b2 : 224 <= b0 <= 239 -> 128 <= b1 <= 191 -> 128 <= b2 <= 191 ->
  (b0 = 224 -> 160 <= b1) -> (b0 = 237 -> b1 <= 159) ->
  exists c, scalar_value c /\ utf8_char c = [b0; b1; b2].
Proof.
  intros H0 H1 H2 Ha Hb. exists (64 * (64 * (b0 - 224) + (b1 - 128)) + (b2 - 128)). split.
  - unfold scalar_value. lia.
  - unfold utf8_char.
    replace (_ <? 128) with false by lia. replace (_ <? 2048) with false by lia. replace (_ <? 65536) with true by lia.
    change 4096 with (64 * 64). rewrite <- N.div_div by lia.
    rewrite (div_small_add (64 * (b0 - 224) + (b1 - 128))), (mod_small_add (64 * (b0 - 224) + (b1 - 128))) by lia.
    rewrite div_small_add, mod_small_add by lia. repeat f_equal; lia.
Qed.

Lemma char4 b0 b1 b2 b3 : 240 <= b0 <= 244 -> 128 <= b1 <= 191 -> 128 <= b2 <= 191 -> 128 <= b3 <= 191 ->
  (b0 = 240 -> 144 <= b1) -> (b0 = 244 -> b1 <= 143) ->
  exists c, scalar_value c /\ utf8_char c = [b0; b1; b2; b3].
Proof.
  intros H0 H1 H2 H3 Ha Hb.
  exists (64 * (64 * (64 * (b0 - 240) + (b1 - 128)) + (b2 - 128)) + (b3 - 128)). split.
  - unfold scalar_value. lia.
  - unfold utf8_char.
    replace (_ <? 128) with false by lia. replace (_ <? 2048) with false by lia. replace (_ <? 65536) with false by lia.
    change 262144 with (64 * 64 * 64). change 4096 with (64 * 64). rewrite <- !N.div_div by lia.
    rewrite (div_small_add (64 * (64 * (b0 - 240) + (b1 - 128)) + (b2 - 128))),
      (mod_small_add (64 * (64 * (b0 - 240) + (b1 - 128)) + (b2 - 128))) by lia.
    rewrite (div_small_add (64 * (b0 - 240) + (b1 - 128))), (mod_small_add (64 * (b0 - 240) + (b1 - 128))) by lia.
    rewrite div_small_add, mod_small_add by lia. repeat f_equal; lia.
Qed.

Lemma utf8_valid_text n b : (length b <= n)%nat -> utf8_valid b = true -> utf8_text b.
Proof.
  revert b. induction n as [|n IH]; intros b Hn Hv.
  - destruct b; [|simpl in Hn; lia]. exists []. split; [constructor|reflexivity].
  - destruct b as [|b0 r0]; [exists []; split; [constructor|reflexivity]|].
    cbn [utf8_valid] in Hv. cbn [length] in Hn. destruct (N.ltb_spec b0 128) as [H0|H0].
    { replace (b0 :: r0) with (utf8_char b0 ++ r0).
      2:{ unfold utf8_char. now replace (b0 <? 128) with true by lia. }
      apply text_cons; [left; lia|]. apply IH; [lia|exact Hv]. }
    destruct r0 as [|b1 r1]; [discriminate|]. cbn [length] in Hn.
    destruct (in_range 194 223 b0) eqn:E2.
    { apply andb_true_iff in Hv as [H1 Hv]. apply in_range_spec in E2, H1.
      destruct (char2 b0 b1 E2 H1) as (c & Hc & E). change (b0 :: b1 :: r1) with ([b0; b1] ++ r1). rewrite <- E.
      apply text_cons; [exact Hc|]. apply IH; [lia|exact Hv]. }
    destruct r1 as [|b2 r2]; [discriminate|]. cbn [length] in Hn.
    match type of Hv with (if ?x then _ else _) = _ => destruct x eqn:E3 end.
    { apply andb_true_iff in Hv as [H2 Hv]. apply in_range_spec in H2.
      destruct (char3 b0 b1 b2) as (c & Hc & E); auto;
        try (destruct (N.eqb_spec b0 224); [apply in_range_spec in E3; lia|];
             destruct (N.eqb_spec b0 237); [apply in_range_spec in E3; lia|];
             apply andb_true_iff in E3 as [E3 E4]; apply in_range_spec in E3, E4; lia).
      change (b0 :: b1 :: b2 :: r2) with ([b0; b1; b2] ++ r2). rewrite <- E.
      apply text_cons; [exact Hc|]. apply IH; [lia|exact Hv]. }
    destruct r2 as [|b3 r3]; [discriminate|]. cbn [length] in Hn.
    apply andb_true_iff in Hv as [H' Hv]. apply andb_true_iff in H' as [H' H3]. apply andb_true_iff in H' as [H' H2].
    apply in_range_spec in H2, H3.
    destruct (char4 b0 b1 b2 b3) as (c & Hc & E); auto;
      try (destruct (N.eqb_spec b0 240); [apply in_range_spec in H'; lia|];
           destruct (N.eqb_spec b0 244); [apply in_range_spec in H'; lia|];
           apply andb_true_iff in H' as [E5 E6]; apply in_range_spec in E5, E6; lia).
    change (b0 :: b1 :: b2 :: b3 :: r3) with ([b0; b1; b2; b3] ++ r3). rewrite <- E.
    apply text_cons; [exact Hc|]. apply IH; [lia|exact Hv].
Qed.

Lemma utf8_text_valid b : utf8_text b -> utf8_valid b = true.
Proof.
  intros (cs & H & ->). induction H as [|c cs Hc H IH]; [reflexivity|].
  cbn [flat_map]. now rewrite utf8_valid_char.
Qed.

Theorem to_string_spec b :
  (utf8_text b -> to_string (DBytes b) = b) /\ (~ utf8_text b -> to_string (DBytes b) = []).
Proof.
  cbn [to_string]. split; intros H.
  - now rewrite (utf8_text_valid b H).
  - destruct (utf8_valid b) eqn:E; [|reflexivity]. elim H. eapply utf8_valid_text; eauto.
Qed.
