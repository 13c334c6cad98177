(* Shared vocabulary: results of modelled Rust functions, build modes,
   fixed-width arithmetic and MSB-first bit strings. *)
From Coq Require Export List NArith ZArith Lia Bool Arith.
From Coq Require Import ZifyBool ZifyNat ZifyN.
Export ListNotations.
Open Scope N_scope.

Arguments N.add : simpl never.
Arguments N.sub : simpl never.
Arguments N.mul : simpl never.
Arguments N.pow : simpl never.
Arguments N.div : simpl never.
Arguments N.modulo : simpl never.
Arguments N.ltb : simpl never.
Arguments N.leb : simpl never.
Arguments N.eqb : simpl never.
Arguments N.testbit : simpl never.
Arguments N.shiftl : simpl never.
Arguments N.shiftr : simpl never.
Arguments N.land : simpl never.
Arguments N.lor : simpl never.
Arguments N.of_nat : simpl never.
Arguments N.to_nat : simpl never.

(* ------------------------------------------------------------------ *)
(* Outcome of a modelled function: Rust's Result plus panic plus the
   artefact of writing loops with fuel. *)
Inductive outcome (E A : Type) : Type :=
| Ok (a : A)
| Err (e : E)
| Panic
| OutOfFuel.
Arguments Ok {E A} a.
Arguments Err {E A} e.
Arguments Panic {E A}.
Arguments OutOfFuel {E A}.

Definition bind {E A B} (x : outcome E A) (k : A -> outcome E B) : outcome E B :=
  match x with
  | Ok a => k a
  | Err e => Err e
  | Panic => Panic
  | OutOfFuel => OutOfFuel
  end.

(* Same, while a `&mut` argument whose current value is [d] is in scope:
   on a non-Ok outcome the caller sees [d]. *)
Definition bindd {D E A B} (d : D) (x : outcome E A)
           (k : A -> D * outcome E B) : D * outcome E B :=
  match x with
  | Ok a => k a
  | Err e => (d, Err e)
  | Panic => (d, Panic)
  | OutOfFuel => (d, OutOfFuel)
  end.

(* Sequencing of functions that already return the `&mut` argument. *)
Definition binds {D E A B} (x : D * outcome E A)
           (k : D -> A -> D * outcome E B) : D * outcome E B :=
  match x with
  | (d, Ok a) => k d a
  | (d, Err e) => (d, Err e)
  | (d, Panic) => (d, Panic)
  | (d, OutOfFuel) => (d, OutOfFuel)
  end.

Notation "x <- e ;; k" := (bind e (fun x => k))
  (at level 61, e at next level, right associativity).
Notation "x <-[ d ] e ;; k" := (bindd d e (fun x => k))
  (at level 61, d at next level, e at next level, right associativity).

(* Build mode: overflow checks on (cargo's dev profile) or off (release). *)
Inductive mode := Debug | Release.

Definition overflow {E A} (m : mode) (a : A) : outcome E A :=
  match m with Debug => Panic | Release => Ok a end.

(* Rust `+ - * << >>` on unsigned integers of [w] bits. *)
Definition u_add {E} (m : mode) (w a b : N) : outcome E N :=
  if a + b <? 2 ^ w then Ok (a + b) else overflow m ((a + b) mod 2 ^ w).
Definition u_sub {E} (m : mode) (w a b : N) : outcome E N :=
  if b <=? a then Ok (a - b) else overflow m ((a + 2 ^ w - b) mod 2 ^ w).
(* A shift by >= the width panics in debug builds and uses the amount modulo
   the width in release builds; bits shifted out are dropped in both. *)
Definition u_shl {E} (m : mode) (w a s : N) : outcome E N :=
  if s <? w then Ok (N.shiftl a s mod 2 ^ w)
  else overflow m (N.shiftl a (s mod w) mod 2 ^ w).
Definition u_shr {E} (m : mode) (w a s : N) : outcome E N :=
  if s <? w then Ok (N.shiftr a s) else overflow m (N.shiftr a (s mod w)).

(* `as uW` casts. *)
Definition wrap (w a : N) : N := a mod 2 ^ w.

Definition is_byte (b : N) : Prop := b < 256.
Definition bytes (l : list N) : Prop := Forall is_byte l.

(* ------------------------------------------------------------------ *)
(* Checked operations when they do not overflow. *)
Lemma u_add_ok {E} m w a b : a + b < 2 ^ w -> @u_add E m w a b = Ok (a + b).
Proof. unfold u_add; intros H. apply N.ltb_lt in H. now rewrite H. Qed.
Lemma u_sub_ok {E} m w a b : b <= a -> @u_sub E m w a b = Ok (a - b).
Proof. unfold u_sub; intros H. apply N.leb_le in H. now rewrite H. Qed.
Lemma u_shl_ok {E} m w a s :
  s < w -> a * 2 ^ s < 2 ^ w -> @u_shl E m w a s = Ok (a * 2 ^ s).
Proof.
  unfold u_shl; intros H H'. apply N.ltb_lt in H. rewrite H.
  rewrite N.shiftl_mul_pow2, N.mod_small; auto.
Qed.
Lemma u_shr_ok {E} m w a s : s < w -> @u_shr E m w a s = Ok (a / 2 ^ s).
Proof.
  unfold u_shr; intros H. apply N.ltb_lt in H. rewrite H.
  now rewrite N.shiftr_div_pow2.
Qed.

(* ------------------------------------------------------------------ *)
(* Bit strings, most significant bit first. *)
Fixpoint bits_of (n : nat) (v : N) : list bool :=
  match n with
  | O => []
  | S n' => N.testbit v (N.of_nat n') :: bits_of n' v
  end.

Definition val (l : list bool) : N :=
  fold_left (fun a b => 2 * a + N.b2n b) l 0.

(* The bits of a byte string, in transmission order. *)
Definition bits_of_bytes (l : list N) : list bool :=
  flat_map (bits_of 8) l.

Definition prefix {A} (p l : list A) : Prop := exists t, l = p ++ t.

(* ------------------------------------------------------------------ *)
Lemma pow2_pos n : 0 < 2 ^ n.
Proof. apply N.neq_0_lt_0, N.pow_nonzero; lia. Qed.

Lemma pow2_S n : 2 ^ N.of_nat (S n) = 2 * 2 ^ N.of_nat n.
Proof. rewrite Nat2N.inj_succ, N.pow_succ_r'; reflexivity. Qed.

Lemma bits_of_length n v : length (bits_of n v) = n.
Proof. induction n; simpl; auto. Qed.

Lemma val_acc l : forall a,
  fold_left (fun a b => 2 * a + N.b2n b) l a
  = a * 2 ^ N.of_nat (length l) + val l.
Proof.
  unfold val. induction l as [|b l IH]; intros a; cbn [fold_left length].
  - change (N.of_nat 0) with 0. rewrite N.pow_0_r. lia.
  - rewrite IH, (IH (2 * 0 + N.b2n b)), pow2_S. lia.
Qed.

Lemma val_nil : val [] = 0. Proof. reflexivity. Qed.

Lemma val_cons b l : val (b :: l) = N.b2n b * 2 ^ N.of_nat (length l) + val l.
Proof. unfold val at 1. cbn [fold_left]. rewrite val_acc. lia. Qed.

Lemma val_app l1 l2 : val (l1 ++ l2) = val l1 * 2 ^ N.of_nat (length l2) + val l2.
Proof. unfold val at 1. rewrite fold_left_app. apply val_acc. Qed.

Lemma val_lt l : val l < 2 ^ N.of_nat (length l).
Proof.
  induction l as [|b l IH].
  - reflexivity.
  - rewrite val_cons. cbn [length]. rewrite pow2_S. destruct b; simpl N.b2n; lia.
Qed.

Lemma testbit_val_head b l :
  N.testbit (val (b :: l)) (N.of_nat (length l)) = b.
Proof.
  rewrite val_cons. rewrite N.testbit_eqb.
  pose proof (val_lt l) as H. pose proof (pow2_pos (N.of_nat (length l))) as Hp.
  rewrite N.div_add_l by lia. rewrite (N.div_small (val l)) by lia.
  destruct b; reflexivity.
Qed.

Lemma bits_of_ext n v w :
  v mod 2 ^ N.of_nat n = w mod 2 ^ N.of_nat n -> bits_of n v = bits_of n w.
Proof.
  intros H.
  assert (Hb : forall k, (k < n)%nat -> N.testbit v (N.of_nat k) = N.testbit w (N.of_nat k)).
  { intros k Hk.
    rewrite <- (N.mod_pow2_bits_low v (N.of_nat n)) by lia.
    rewrite <- (N.mod_pow2_bits_low w (N.of_nat n)) by lia. now rewrite H. }
  clear H. induction n as [|n IH]; [reflexivity|].
  simpl. rewrite Hb by lia. rewrite IH; [reflexivity|]. intros k Hk. apply Hb. lia.
Qed.

Lemma bits_of_val l : bits_of (length l) (val l) = l.
Proof.
  induction l as [|b l IH]; [reflexivity|].
  cbn [length bits_of]. rewrite testbit_val_head. f_equal.
  transitivity (bits_of (length l) (val l)); [|exact IH]. apply bits_of_ext.
  rewrite val_cons, N.add_comm, N.mod_add; [reflexivity|].
  pose proof (pow2_pos (N.of_nat (length l))). lia.
Qed.

Lemma bits_of_val_n n l : length l = n -> bits_of n (val l) = l.
Proof. intros <-. apply bits_of_val. Qed.

Lemma val_bits_of n v : val (bits_of n v) = v mod 2 ^ N.of_nat n.
Proof.
  induction n as [|n IH].
  - simpl. rewrite N.mod_1_r. reflexivity.
  - cbn [bits_of]. rewrite val_cons, bits_of_length, IH, pow2_S.
    rewrite N.testbit_eqb.
    pose proof (pow2_pos (N.of_nat n)) as Hp.
    set (p := 2 ^ N.of_nat n) in *.
    rewrite (N.mul_comm 2 p), N.mod_mul_r by lia.
    assert (Hm : (v / p) mod 2 < 2) by (apply N.mod_lt; lia).
    clearbody p. generalize dependent ((v / p) mod 2). intros x Hm.
    destruct (N.eqb_spec x 1) as [e|e]; simpl N.b2n.
    + rewrite e. ring.
    + assert (e' : x = 0) by lia. rewrite e'. ring.
Qed.

Lemma val_bits_of_small n v : v < 2 ^ N.of_nat n -> val (bits_of n v) = v.
Proof. intros H. rewrite val_bits_of. now apply N.mod_small. Qed.

Lemma val_inj l1 l2 : length l1 = length l2 -> val l1 = val l2 -> l1 = l2.
Proof.
  intros Hl Hv. rewrite <- (bits_of_val l1), <- (bits_of_val l2). now rewrite Hl, Hv.
Qed.

Lemma bits_of_app n m v :
  bits_of (n + m) v = bits_of n (v / 2 ^ N.of_nat m) ++ bits_of m v.
Proof.
  induction n as [|n IH]; [reflexivity|].
  cbn [Nat.add bits_of app]. rewrite IH. f_equal.
  rewrite <- N.shiftr_div_pow2, N.shiftr_spec'. f_equal. lia.
Qed.

Lemma bits_of_bytes_app a b : bits_of_bytes (a ++ b) = bits_of_bytes a ++ bits_of_bytes b.
Proof. apply flat_map_app. Qed.

Lemma bits_of_bytes_length l : length (bits_of_bytes l) = (8 * length l)%nat.
Proof.
  unfold bits_of_bytes. induction l as [|b l IH]; [reflexivity|].
  cbn [flat_map length]. rewrite app_length, IH, bits_of_length. lia.
Qed.

Lemma app_inj_len {A} (a1 a2 b1 b2 : list A) :
  length a1 = length a2 -> a1 ++ b1 = a2 ++ b2 -> a1 = a2 /\ b1 = b2.
Proof.
  revert a2. induction a1 as [|x a1 IH]; intros [|y a2] Hl He; simpl in *; try lia; auto.
  injection He as -> He. injection Hl as Hl. destruct (IH _ Hl He) as [-> ->]. auto.
Qed.

Lemma bits_of_inj n v w :
  v < 2 ^ N.of_nat n -> w < 2 ^ N.of_nat n -> bits_of n v = bits_of n w -> v = w.
Proof.
  intros Hv Hw H. rewrite <- (val_bits_of_small n v), <- (val_bits_of_small n w) by assumption.
  now rewrite H.
Qed.

Lemma bits_of_bytes_inj a b :
  bytes a -> bytes b -> bits_of_bytes a = bits_of_bytes b -> a = b.
Proof.
  intros Ha; revert b. induction Ha as [|x a Hx Ha IH]; intros b Hb He.
  - destruct b; [reflexivity|discriminate He].
  - destruct Hb as [|y b Hy Hb]; [discriminate He|].
    unfold bits_of_bytes in He. cbn [flat_map] in He.
    apply app_inj_len in He; [|now rewrite !bits_of_length]. destruct He as [H1 H2].
    f_equal; [|now apply IH].
    apply (bits_of_inj 8); auto.
Qed.

Lemma bytes_app a b : bytes (a ++ b) <-> bytes a /\ bytes b.
Proof. apply Forall_app. Qed.

Lemma bytes_nil : bytes []. Proof. constructor. Qed.

Lemma bytes_cons x l : bytes (x :: l) <-> x < 256 /\ bytes l.
Proof. unfold bytes. rewrite Forall_cons_iff. reflexivity. Qed.

Lemma prefix_refl {A} (l : list A) : prefix l l.
Proof. exists []. now rewrite app_nil_r. Qed.

Lemma prefix_nil {A} (l : list A) : prefix [] l.
Proof. now exists l. Qed.

Lemma prefix_app_r {A} (p l t : list A) : prefix p l -> prefix p (l ++ t).
Proof. intros [x ->]. exists (x ++ t). now rewrite app_assoc. Qed.

Lemma prefix_length {A} (p l : list A) : prefix p l -> (length p <= length l)%nat.
Proof. intros [x ->]. rewrite app_length. lia. Qed.

(* Two prefixes of the same list are comparable. *)
Lemma prefix_total {A} (a b l : list A) :
  prefix a l -> prefix b l -> (length a <= length b)%nat -> prefix a b.
Proof.
  intros [x Hx] [y Hy] Hle.
  exists (skipn (length a) b).
  rewrite <- (firstn_skipn (length a) b) at 1. f_equal.
  assert (H : firstn (length a) (a ++ x) = firstn (length a) (b ++ y)) by congruence.
  rewrite firstn_app, Nat.sub_diag, firstn_all, firstn_O, app_nil_r in H.
  rewrite firstn_app in H. replace (length a - length b)%nat with 0%nat in H by lia.
  rewrite firstn_O, app_nil_r in H. congruence.
Qed.

Lemma repeat_app_comm {A} (x : A) n m : repeat x n ++ repeat x m = repeat x (n + m).
Proof. symmetry. apply repeat_app. Qed.

(* Disjoint bitwise or is addition. *)
Lemma lor_add_low a b n : b < 2 ^ n -> N.lor (a * 2 ^ n) b = a * 2 ^ n + b.
Proof.
  intros H. apply N.bits_inj; intros k.
  rewrite N.lor_spec.
  destruct (N.lt_ge_cases k n) as [Hk|Hk].
  - rewrite N.mul_pow2_bits_low by assumption. simpl.
    rewrite <- (N.mod_pow2_bits_low (a * 2 ^ n + b) n) by assumption.
    rewrite N.add_comm, N.mod_add by (pose proof (pow2_pos n); lia).
    now rewrite N.mod_small.
  - assert (Hb : N.testbit b k = false).
    { destruct (N.eq_dec b 0) as [->|Hb0]; [apply N.bits_0|].
      apply N.bits_above_log2. apply N.log2_lt_pow2; [lia|].
      eapply N.lt_le_trans; [exact H|]. now apply N.pow_le_mono_r. }
    rewrite Hb, orb_false_r.
    replace k with (k - n + n) at 2 by lia.
    rewrite <- N.div_pow2_bits.
    rewrite N.div_add_l by (pose proof (pow2_pos n); lia).
    rewrite (N.div_small b) by assumption. rewrite N.add_0_r.
    replace k with (k - n + n) at 1 by lia.
    rewrite N.mul_pow2_bits_add. reflexivity.
Qed.

Lemma lor_add_low' a b n : b < 2 ^ n -> N.lor (N.shiftl a n) b = a * 2 ^ n + b.
Proof. rewrite N.shiftl_mul_pow2. apply lor_add_low. Qed.

Lemma land_ones_mod a n : N.land a (2 ^ n - 1) = a mod 2 ^ n.
Proof.
  rewrite <- N.land_ones. f_equal. rewrite N.ones_equiv. lia.
Qed.
