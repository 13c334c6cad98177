(* Property theorem C94: Huffman strings written one after the other. *)
From Verif Require Import Base HuffTables HuffModel HuffSpec HuffCode HuffEncProofs HuffDecProofs HuffDerived.
Open Scope list_scope.
Open Scope N_scope.

Lemma ones_shift (X : list bool) : forall k t, (1 <= k)%nat -> repeat true k ++ X = X ++ t -> X = repeat true (List.length X).
Proof.
  induction X as [|b X IH]; intros k t Hk E; [reflexivity|].
  destruct k as [|k]; [lia|]. cbn [repeat app] in E. injection E as Eb E. subst b. cbn [List.length repeat]. f_equal.
  change (true :: X) with ([true] ++ X) in E. rewrite app_assoc in E. change [true] with (repeat true 1) in E.
  rewrite <- repeat_app in E. apply (IH (k + 1)%nat t); [lia|exact E].
Qed.
Lemma ones_prefix (p : list bool) : forall n, prefix p (repeat true n) -> p = repeat true (List.length p).
Proof.
  induction p as [|b p IH]; intros n [t E]; [reflexivity|]. destruct n as [|n]; [discriminate E|].
  cbn [repeat app] in E. injection E as Eb E. subst b. cbn [List.length repeat]. f_equal. apply (IH n). now exists t.
Qed.
(* No non-empty string has a code that is all ones. *)
Lemma codes_not_ones b n : bytes b -> codes b = repeat true n -> b = [].
Proof.
  destruct b as [|c b]; intros Hb E; [reflexivity|]. exfalso. assert (Hc : c < 256) by (inversion Hb; assumption).
  unfold codes in E. cbn [flat_map] in E. assert (P : prefix (code c) (repeat true n)) by (exists (flat_map code b); now rewrite E).
  apply (ones_no_code (List.length (code c)) c); [|exact Hc|].
  - apply code_length. lia.
  - rewrite <- (ones_prefix _ _ P). exists []. now rewrite app_nil_r.
Qed.

(* Two calls of encode on one vector write what one call on the joined string writes
   exactly if the first string ends at an octet boundary, or nothing follows it. *)
Theorem C94_encode_join : forall m a b dst, bytes a -> bytes b ->
  exists once first twice,
    encode m (a ++ b) dst = (once, Ok tt) /\
    encode m a dst = (first, Ok tt) /\ encode m b first = (twice, Ok tt) /\
    (twice = once <-> b = [] \/ (List.length (codes a) mod 8 = 0)%nat).
Proof.
  intros m a b dst Ha Hb. assert (Hab : bytes (a ++ b)) by (now apply Forall_app).
  destruct (encode_ok m (a ++ b) dst Hab) as (o & k & Eo & Bo & Hk & Ho).
  destruct (encode_ok m a dst Ha) as (o1 & k1 & E1 & B1 & Hk1 & H1).
  destruct (encode_ok m b (dst ++ o1) Hb) as (o2 & k2 & E2 & B2 & Hk2 & H2).
  exists (dst ++ o), (dst ++ o1), ((dst ++ o1) ++ o2).
  refine (conj Eo (conj E1 (conj E2 _))).
  pose proof (bits_of_bytes_length o1) as L1. rewrite H1, app_length, repeat_length in L1.
  rewrite codes_app in Ho. split.
  - intros E. rewrite <- app_assoc in E. apply app_inv_head in E.
    destruct k1 as [|k1']; [right; rewrite Nat.add_0_r in L1; rewrite L1, Nat.mul_comm; apply Nat.mod_mul; lia|left].
    apply (f_equal bits_of_bytes) in E. rewrite bits_of_bytes_app, H1, H2, Ho, <- !app_assoc in E. apply app_inv_head in E.
    assert (P : exists t, repeat true (S k1') ++ codes b = codes b ++ t).
    { assert (F : firstn (S k1' + List.length (codes b)) (repeat true (S k1') ++ codes b ++ repeat true k2) =
                  firstn (S k1' + List.length (codes b)) (codes b ++ repeat true k)) by now rewrite E.
      rewrite (app_assoc (repeat true (S k1')) (codes b)) in F. rewrite firstn_app in F.
      rewrite firstn_all2 in F by (rewrite app_length, repeat_length; lia).
      rewrite app_length, repeat_length, Nat.sub_diag, firstn_O, app_nil_r in F. rewrite F, firstn_app.
      rewrite firstn_all2 by lia. eexists. reflexivity. }
    destruct P as [t P]. apply (codes_not_ones b (List.length (codes b)) Hb). apply (ones_shift _ (S k1') t); [lia|exact P].
  - intros [->|A].
    + rewrite encode_empty in E2. injection E2 as E2. rewrite <- E2. rewrite app_nil_r in Eo. congruence.
    + assert (k1 = 0)%nat as ->.
      { apply Nat.mod_divides in A; [|lia]. destruct A as [c A]. lia. }
      rewrite <- app_assoc. f_equal. apply bits_of_bytes_inj; [now apply Forall_app|exact Bo|].
      rewrite bits_of_bytes_app, H1, H2, Ho, app_nil_r, app_assoc. f_equal. f_equal.
      apply (bits_pad_unique (codes a ++ codes b)); [| |exact Hk2|exact Hk].
      * rewrite <- app_assoc, <- H2. cbn [repeat] in H1. rewrite app_nil_r in H1. rewrite <- H1, <- bits_of_bytes_app, bits_of_bytes_length, Nat.mul_comm. apply Nat.mod_mul. lia.
      * rewrite <- Ho, bits_of_bytes_length, Nat.mul_comm. apply Nat.mod_mul. lia.
Qed.
Print Assumptions C94_encode_join.

(* The same for reading: the two encodings, one behind the other, are read as the joined
   string exactly under that condition. *)
Theorem C94_decode_join : forall m m' sp a b x y dst, bytes a -> bytes b ->
  encode m a [] = (x, Ok tt) -> encode m b [] = (y, Ok tt) ->
  (decode m' sp (x ++ y) dst = (dst ++ a ++ b, Ok tt) <-> b = [] \/ (List.length (codes a) mod 8 = 0)%nat).
Proof.
  intros m m' sp a b x y dst Ha Hb Ex Ey.
  destruct (encode_ok m a [] Ha) as (o1 & k1 & E1 & B1 & Hk1 & H1). rewrite Ex in E1. injection E1 as <-.
  destruct (encode_ok m b [] Hb) as (o2 & k2 & E2 & B2 & Hk2 & H2). rewrite Ey in E2. injection E2 as <-.
  assert (Bxy : bytes (x ++ y)) by (now apply Forall_app).
  pose proof (bits_of_bytes_length x) as L1. rewrite H1, app_length, repeat_length in L1. split.
  - intros D. apply (decode_accepts_iff m' sp (x ++ y) dst (dst ++ a ++ b) Bxy) in D. destruct D as (syms & rest & Hs & _ & E).
    apply app_inv_head in E. subst syms. destruct Hs as [Hs _].
    rewrite bits_of_bytes_app, H1, H2, codes_app, <- !app_assoc in Hs. apply app_inv_head in Hs.
    destruct k1 as [|k1']; [right; rewrite Nat.add_0_r in L1; rewrite L1, Nat.mul_comm; apply Nat.mod_mul; lia|left].
    assert (P : exists t, repeat true (S k1') ++ codes b = codes b ++ t).
    { assert (F : firstn (S k1' + List.length (codes b)) (repeat true (S k1') ++ codes b ++ repeat true k2) =
                  firstn (S k1' + List.length (codes b)) (codes b ++ rest)) by now rewrite Hs.
      rewrite (app_assoc (repeat true (S k1')) (codes b)) in F. rewrite firstn_app in F.
      rewrite firstn_all2 in F by (rewrite app_length, repeat_length; lia).
      rewrite app_length, repeat_length, Nat.sub_diag, firstn_O, app_nil_r in F. rewrite F, firstn_app.
      rewrite firstn_all2 by lia. eexists. reflexivity. }
    destruct P as [t P]. apply (codes_not_ones b (List.length (codes b)) Hb). apply (ones_shift _ (S k1') t); [lia|exact P].
  - intros [->|A].
    + rewrite encode_empty in Ey. injection Ey as <-. rewrite !app_nil_r.
      destruct (huff_round_trip m m' sp a [] dst Ha) as (out & Eo & _ & D). rewrite Ex in Eo. injection Eo as ->. exact D.
    + assert (k1 = 0)%nat as ->.
      { apply Nat.mod_divides in A; [|lia]. destruct A as [c A]. lia. }
      apply (decode_accepts_iff m' sp (x ++ y) dst (dst ++ a ++ b) Bxy). exists (a ++ b), (repeat true k2).
      refine (conj _ (conj (ones_accepted k2 _) eq_refl)); [|lia].
      rewrite bits_of_bytes_app, H1, H2. cbn [repeat]. rewrite app_nil_r, app_assoc, <- codes_app.
      apply splits_encoded; [now apply Forall_app|exact Hk2].
Qed.
Print Assumptions C94_decode_join.

(* Whatever the alignment, the first string is read first. *)
Theorem C94_first_string : forall m m' sp a x z dst, bytes a -> bytes z -> encode m a [] = (x, Ok tt) ->
  exists more, fst (decode m' sp (x ++ z) dst) = dst ++ a ++ more.
Proof.
  intros m m' sp a x z dst Ha Hz Ex.
  destruct (encode_ok m a [] Ha) as (o1 & k1 & E1 & B1 & Hk1 & H1). rewrite Ex in E1. injection E1 as <-.
  destruct (splits_total (repeat true k1 ++ bits_of_bytes z)) as (syms & rest & Hs & Hb & Hn).
  assert (S : splits (bits_of_bytes (x ++ z)) (a ++ syms) rest).
  { split; [|split; [now apply Forall_app|exact Hn]]. rewrite bits_of_bytes_app, H1, <- app_assoc, Hs, codes_app, app_assoc. reflexivity. }
  exists syms. rewrite (decode_ok m' sp (x ++ z) dst _ _ (proj2 (Forall_app _ _ _) (conj B1 Hz)) S). reflexivity.
Qed.
Print Assumptions C94_first_string.

(* "0" takes five bits, "&" eight: joined behind "0" a second "0" is read as "U", and behind
   "&" as "0". *)
Example C94_holds_of :
  encode Release [48] [] = ([7], Ok tt) /\ List.length (codes [48]) = 5%nat /\
  encode Release [48; 48] [] = ([0; 63], Ok tt) /\ decode Release FiveBits [7; 7] [] = ([48; 85], Ok tt) /\
  encode Release [38] [] = ([248], Ok tt) /\ List.length (codes [38]) = 8%nat /\
  encode Release [38; 48] [] = ([248; 7], Ok tt) /\ decode Release FiveBits [248; 7] [] = ([38; 48], Ok tt).
Proof. vm_compute. repeat split; reflexivity. Qed.
