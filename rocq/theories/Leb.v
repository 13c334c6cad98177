(* Base-128 little-endian groups with continuation bit: the tail of an HPACK
   integer (RFC 7541 section 5.1) and the protobuf varint. *)
From Verif Require Import Base.
Open Scope N_scope.

(* [leb128 bs v]: the octets bs denote v.  Every octet but the last has its top
   bit set; the low seven bits are the groups, least significant first. *)
Inductive leb128 : list N -> N -> Prop :=
| leb_last b : b < 128 -> leb128 [b] b
| leb_more b bs v : b < 128 -> leb128 bs v -> leb128 ((128 + b) :: bs) (b + 128 * v).

(* Octets with the continuation bit set. *)
Definition continued (l : list N) : Prop := Forall (fun b => 128 <= b < 256) l.

Lemma leb_nonempty bs v : leb128 bs v -> bs <> [].
Proof. destruct 1; discriminate. Qed.

Lemma leb_bytes bs v : leb128 bs v -> bytes bs.
Proof. induction 1; repeat constructor; unfold is_byte; try lia. exact IHleb128. Qed.

Lemma leb_bound bs v : leb128 bs v -> v < 128 ^ N.of_nat (length bs).
Proof.
  induction 1; simpl length.
  - change (128 ^ N.of_nat 1) with 128. lia.
  - rewrite Nat2N.inj_succ, N.pow_succ_r by lia. lia.
Qed.

Lemma leb_prefix_free a v b w x y :
  leb128 a v -> leb128 b w -> a ++ x = b ++ y -> a = b /\ v = w /\ x = y.
Proof.
  intros Ha. revert b w x y. induction Ha; intros c w x y Hc E; inversion Hc; subst; simpl in E;
    injection E as E1 E2; try lia.
  - subst. auto.
  - assert (b = b0) by lia. subst b0.
    destruct (IHHa _ _ _ _ H1 E2) as (-> & -> & ->). auto.
Qed.

Lemma leb_fun a v w : leb128 a v -> leb128 a w -> v = w.
Proof.
  intros H1 H2. destruct (leb_prefix_free a v a w [] [] H1 H2) as (_ & H & _); auto.
Qed.

Lemma continued_not_leb t x bs v y : continued t -> leb128 bs v -> (length bs <= length t)%nat ->
  t ++ x = bs ++ y -> False.
Proof.
  revert bs v. induction t as [|c t IH]; intros bs v Hc Hl Hlen E.
  - destruct Hl; simpl in Hlen; lia.
  - inversion Hc; subst. inversion Hl; subst; simpl in E; injection E as E1 E2; try lia.
    simpl in Hlen. eapply IH; eauto. lia.
Qed.

(* Scanning at most n octets of a byte string has three outcomes. *)
Lemma leb_scan n rest : bytes rest ->
  (exists t r rest', rest = t ++ rest' /\ leb128 t r /\ (length t <= n)%nat) \/
  (continued rest /\ (length rest < n)%nat) \/
  (exists t rest', rest = t ++ rest' /\ continued t /\ length t = n).
Proof.
  revert rest. induction n as [|n IH]; intros rest Hb.
  - right; right. exists [], rest. repeat split; constructor.
  - destruct rest as [|b rest].
    + right; left. split; [constructor | simpl; lia].
    + apply bytes_cons in Hb as [Hb Hr].
      destruct (N.lt_ge_cases b 128) as [Hlt|Hge].
      * left. exists [b], b, rest. repeat split; [constructor; lia | simpl; lia].
      * destruct (IH rest Hr) as [(t & r & rest' & -> & Hl & Hn)|[(Hc & Hn)|(t & rest' & -> & Hc & Hn)]].
        -- left. exists (b :: t), ((b - 128) + 128 * r), rest'. split; [reflexivity|]. split.
           ++ replace b with (128 + (b - 128)) at 1 by lia. constructor; [lia|exact Hl].
           ++ simpl; lia.
        -- right; left. split; [constructor; [lia|exact Hc] | simpl; lia].
        -- right; right. exists (b :: t), rest'. repeat split; [constructor; [lia|exact Hc] | simpl; lia].
Qed.

(* Existence of the shortest encoding, and what its length is. *)
Definition leb_min (bs : list N) (v : N) : Prop :=
  leb128 bs v /\ forall bs', leb128 bs' v -> (length bs <= length bs')%nat.

Lemma leb_min_intro bs v : leb128 bs v ->
  (length bs = 1%nat \/ 128 ^ N.of_nat (length bs - 1) <= v) -> leb_min bs v.
Proof.
  intros Hl Hd. split; [exact Hl|]. intros bs' Hl'.
  destruct Hd as [H|H].
  - destruct Hl'; simpl; lia.
  - apply leb_bound in Hl'. destruct (Nat.le_gt_cases (length bs) (length bs')) as [|Hgt]; [assumption|].
    exfalso. assert (128 ^ N.of_nat (length bs') <= 128 ^ N.of_nat (length bs - 1)).
    { apply N.pow_le_mono_r; lia. }
    lia.
Qed.

Lemma leb_length_inj a v b w : leb128 a v -> leb128 b w -> v = w -> length a = length b -> a = b.
Proof.
  intros Ha. revert b w. induction Ha; intros c w Hc E L; inversion Hc; subst; simpl in L.
  - reflexivity.
  - destruct H1; simpl in L; lia.
  - destruct Ha; simpl in L; lia.
  - assert (b = b0 /\ v = v0) as [-> ->] by lia.
    f_equal. eapply IHHa; eauto.
Qed.
