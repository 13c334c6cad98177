(* Facts about the RFC code: finite checks lifted to all bit strings. *)
From Verif Require Import Base HuffTables HuffSpec.
From Coq Require Import ZifyBool ZifyNat ZifyN.
Open Scope N_scope.

(* All symbols 0..256. *)
Definition symbols : list N := map N.of_nat (seq 0 257).

Lemma symbols_spec a : a <= 256 <-> In a symbols.
Proof.
  unfold symbols. rewrite in_map_iff. split.
  - intros H. exists (N.to_nat a). split; [lia|]. apply in_seq. lia.
  - intros (n & <- & Hn). apply in_seq in Hn. lia.
Qed.

Lemma forall_symbols (f : N -> bool) :
  forallb f symbols = true -> forall a, a <= 256 -> f a = true.
Proof. intros H a Ha. rewrite forallb_forall in H. apply H. now apply symbols_spec. Qed.

Fixpoint beqb (a b : list bool) : bool :=
  match a, b with
  | [], [] => true
  | x :: a', y :: b' => Bool.eqb x y && beqb a' b'
  | _, _ => false
  end.
Lemma beqb_eq a b : beqb a b = true <-> a = b.
Proof.
  revert b. induction a as [|x a IH]; intros [|y b]; simpl; try (split; congruence).
  rewrite andb_true_iff, Bool.eqb_true_iff, IH. split; [intros [-> ->]; auto|intros [= -> ->]; auto].
Qed.

Fixpoint prefixb (a b : list bool) : bool :=
  match a, b with
  | [], _ => true
  | x :: a', y :: b' => Bool.eqb x y && prefixb a' b'
  | _, [] => false
  end.
Lemma prefixb_spec a b : prefixb a b = true <-> prefix a b.
Proof.
  revert b. induction a as [|x a IH]; intros b; simpl.
  - split; auto using prefix_nil.
  - destruct b as [|y b].
    + split; [discriminate|]. intros [t Ht]. discriminate.
    + rewrite andb_true_iff, Bool.eqb_true_iff, IH. split.
      * intros [-> [t ->]]. now exists t.
      * intros [t [= -> ->]]. split; auto. now exists t.
Qed.

(* Table = RFC *)
Lemma table_is_rfc_b :
  forallb (fun a => match nth_error ENCODE_TABLE (N.to_nat a) with
                    | Some (l, c) => (l =? N.of_nat (length (code a))) && (c =? val (code a))
                                     && (5 <=? l) && (l <=? 30)
                    | None => false
                    end) symbols = true.
Proof. vm_compute. reflexivity. Qed.

Lemma table_is_rfc a : a <= 256 ->
  nth_error ENCODE_TABLE (N.to_nat a) = Some (N.of_nat (length (code a)), val (code a)).
Proof.
  intros Ha. pose proof (forall_symbols _ table_is_rfc_b a Ha) as H. cbv beta in H.
  destruct (nth_error _ _) as [[l c]|]; [|discriminate].
  repeat rewrite andb_true_iff in H. destruct H as [[[H1 H2] _] _].
  apply N.eqb_eq in H1, H2. congruence.
Qed.

Lemma code_length a : a <= 256 -> (5 <= length (code a) <= 30)%nat.
Proof.
  intros Ha. pose proof (forall_symbols _ table_is_rfc_b a Ha) as H. cbv beta in H.
  rewrite (table_is_rfc a Ha) in H. repeat rewrite andb_true_iff in H.
  destruct H as [[_ H1] H2]. apply N.leb_le in H1, H2. lia.
Qed.

Lemma table_length : length ENCODE_TABLE = 257%nat.
Proof. reflexivity. Qed.

Lemma code_eos : code EOS = repeat true 30.
Proof. reflexivity. Qed.

(* Prefix-freeness. *)
Lemma prefix_free_b :
  forallb (fun a => forallb (fun b => (a =? b) || negb (prefixb (code a) (code b))) symbols)
          symbols = true.
Proof. vm_compute. reflexivity. Qed.

Lemma prefix_free a b : a <= 256 -> b <= 256 -> prefix (code a) (code b) -> a = b.
Proof.
  intros Ha Hb Hp. pose proof (forall_symbols _ prefix_free_b a Ha) as H.
  cbv beta in H. pose proof (forall_symbols _ H b Hb) as H'. cbv beta in H'.
  apply prefixb_spec in Hp. rewrite Hp in H'. simpl in H'. rewrite orb_false_r in H'.
  now apply N.eqb_eq.
Qed.

Lemma prefix_of_same a b l : a <= 256 -> b <= 256 ->
  prefix (code a) l -> prefix (code b) l -> a = b.
Proof.
  intros Ha Hb H1 H2.
  destruct (Nat.le_ge_cases (length (code a)) (length (code b))) as [Hle|Hle].
  - apply prefix_free; auto. eapply prefix_total; eauto.
  - symmetry. apply prefix_free; auto. eapply prefix_total; eauto.
Qed.

(* Completeness: a binary tree made of the codes. [covers n p]: every extension
   of p by n bits has a code as prefix. *)
Fixpoint covers (n : nat) (cs : list (list bool)) : bool :=
  if existsb (fun c => match c with [] => true | _ => false end) cs then true else
  match n with
  | O => false
  | S n' =>
      let sel b := flat_map (fun c => match c with
                                      | x :: c' => if Bool.eqb x b then [c'] else []
                                      | [] => []
                                      end) cs in
      if covers n' (sel true) then covers n' (sel false) else false
  end.

Lemma covers_spec n : forall cs, covers n cs = true ->
  forall l, (n <= length l)%nat -> exists c, In c cs /\ prefix c l.
Proof.
  induction n as [|n IH]; intros cs H l Hl; cbn [covers] in H;
    destruct (existsb _ cs) eqn:Hex; try discriminate.
  - clear H. rename Hex into H. apply existsb_exists in H. destruct H as (c & Hc & H). destruct c; [|discriminate].
    exists []. split; auto using prefix_nil.
  - clear H. rename Hex into H. apply existsb_exists in H.
    destruct H as (c & Hc & H). destruct c; [|discriminate].
    exists []. split; auto using prefix_nil.
  - clear Hex. destruct l as [|b l]; [simpl in Hl; lia|].
      assert (Hb : exists c, In c (flat_map (fun c => match c with
                                      | x :: c' => if Bool.eqb x b then [c'] else []
                                      | [] => []
                                      end) cs) /\ prefix c l).
      { match goal with Hh : (if ?c then _ else _) = true |- _ =>
          destruct c eqn:Ht; [|discriminate Hh] end.
        simpl in Hl. destruct b; apply IH; auto; lia. }
      destruct Hb as (c & Hc & Hp). apply in_flat_map in Hc.
      destruct Hc as (c0 & Hc0 & Hin). destruct c0 as [|x c']; [destruct Hin|].
      destruct (Bool.eqb x b) eqn:Hx; [|destruct Hin].
      destruct Hin as [->|[]]. apply Bool.eqb_prop in Hx. subst x.
      exists (b :: c). split; auto. destruct Hp as [t ->]. now exists t.
Qed.

Lemma complete_b : covers 30 rfc_codes = true.
Proof. vm_compute. reflexivity. Qed.

Lemma rfc_codes_in c : In c rfc_codes -> exists a, a <= 256 /\ c = code a.
Proof.
  intros H. apply (In_nth _ _ []) in H. destruct H as (n & Hn & <-).
  change (length rfc_codes) with 257%nat in Hn.
  exists (N.of_nat n). split; [lia|]. unfold code. now rewrite Nat2N.id.
Qed.

Lemma complete l : (30 <= length l)%nat -> exists a, a <= 256 /\ prefix (code a) l.
Proof.
  intros H. destruct (covers_spec 30 _ complete_b l H) as (c & Hc & Hp).
  apply rfc_codes_in in Hc. destruct Hc as (a & Ha & ->). eauto.
Qed.

(* ------------------------------------------------------------------ *)
(* Splitting *)

Lemma codes_app a b : codes (a ++ b) = codes a ++ codes b.
Proof. apply flat_map_app. Qed.

Lemma codes_cons a b : codes (a :: b) = code a ++ codes b.
Proof. reflexivity. Qed.

Lemma find_code_dec (l : list bool) :
  (exists a, a < 256 /\ prefix (code a) l) \/ (forall a, a < 256 -> ~ prefix (code a) l).
Proof.
  destruct (existsb (fun a => (a <? 256) && prefixb (code a) l) symbols) eqn:H.
  - left. apply existsb_exists in H. destruct H as (a & _ & H).
    apply andb_true_iff in H. destruct H as [H1 H2]. apply N.ltb_lt in H1.
    apply prefixb_spec in H2. eauto.
  - right. intros a Ha Hp. assert (Hx : existsb (fun a => (a <? 256) && prefixb (code a) l) symbols = true).
    { apply existsb_exists. exists a. split; [apply symbols_spec; lia|].
      apply andb_true_iff. split; [now apply N.ltb_lt|now apply prefixb_spec]. }
    congruence.
Qed.

Lemma splits_total bits : exists syms rest, splits bits syms rest.
Proof.
  remember (length bits) as n eqn:Hn. revert bits Hn.
  induction n as [n IH] using lt_wf_ind. intros bits Hn.
  destruct (find_code_dec bits) as [(a & Ha & t & Ht)|Hno].
  - assert (Hlt : (length t < n)%nat).
    { pose proof (code_length a ltac:(lia)). rewrite Hn, Ht, app_length. lia. }
    destruct (IH _ Hlt t eq_refl) as (syms & rest & He & Hs & Hr).
    exists (a :: syms), rest. split; [|split; auto].
    + rewrite codes_cons, <- app_assoc, Ht, He. reflexivity.
    + constructor; auto.
  - exists [], bits. split; [reflexivity|split; [constructor|exact Hno]].
Qed.

Lemma splits_unique bits s1 r1 s2 r2 :
  splits bits s1 r1 -> splits bits s2 r2 -> s1 = s2 /\ r1 = r2.
Proof.
  revert bits s2. induction s1 as [|a s1 IH]; intros bits s2 (E1 & B1 & N1) (E2 & B2 & N2).
  - destruct s2 as [|b s2]; [simpl in *; split; congruence|].
    exfalso. apply Forall_cons_iff in B2. destruct B2 as [Bb B2].
    apply (N1 b); auto. exists (codes s2 ++ r2).
    cbn [codes flat_map app] in E1. rewrite codes_cons, <- app_assoc in E2. congruence.
  - apply Forall_cons_iff in B1. destruct B1 as [Ba B1].
    rewrite codes_cons, <- app_assoc in E1.
    destruct s2 as [|b s2].
    + exfalso. apply (N2 a); auto. exists (codes s1 ++ r1).
      cbn [codes flat_map app] in E2. congruence.
    + apply Forall_cons_iff in B2. destruct B2 as [Bb B2].
      rewrite codes_cons, <- app_assoc in E2.
      assert (a = b).
      { unfold is_byte in *. apply (prefix_of_same a b bits); try lia.
        - now exists (codes s1 ++ r1).
        - now exists (codes s2 ++ r2). }
      subst b.
      assert (Heq : codes s1 ++ r1 = codes s2 ++ r2).
      { apply (app_inv_head (code a)). congruence. }
      destruct (IH (codes s1 ++ r1) s2) as [-> ->]; repeat split; auto.
Qed.
