(* What a flattened matrix tells about the code it was made from (C122). *)
From Verif Require Import Base HuffTables HuffModel HuffTree HuffFlat HuffFlatPanic HuffFlatIff.
Open Scope list_scope.
Open Scope N_scope.

(* Every bit string that is long enough begins with a code. *)
Definition complete (cs : list (list bool)) : Prop :=
  forall bits, (forall c, In c cs -> (length c <= length bits)%nat) -> exists c, In c cs /\ prefix c bits.

Section Matrix.
Variable sp : nat.
Hypothesis sp_pos : (0 < sp)%nat.
Notation table := (list (list (option N * option N * N))).

Lemma walk_symbol_code cs p bits k u : walk cs p bits (Symbol k u) ->
  exists a b, bits = a ++ b /\ length b = u /\ a <> [] /\ nth_error cs k = Some (p ++ a).
Proof.
  intros H. remember (Symbol k u) as r eqn:E. revert k u E.
  induction H as [p b rest k Hk|p b rest r Hn Hw IH|p Hi|p Hi]; intros k' u E; try discriminate E.
  - injection E as <- <-. exists [b], rest. split; [reflexivity|]. split; [reflexivity|].
    split; [discriminate|exact Hk].
  - destruct (IH k' u E) as (a & x & -> & Hl & _ & Hc). exists (b :: a), x.
    split; [reflexivity|]. split; [exact Hl|]. split; [discriminate|].
    now rewrite <- app_assoc in Hc.
Qed.

Lemma walk_no_code cs p bits r : walk cs p bits r -> (forall k u, r <> Symbol k u) ->
  (forall c, In c cs -> prefix c (p ++ bits) -> (length c <= length p)%nat) /\
  (inner cs (p ++ bits) <-> r = Node (p ++ bits)) /\ (r = Dead \/ r = Node (p ++ bits)).
Proof.
  induction 1 as [p b rest k Hk|p b rest r Hn Hw IH|p Hi|p Hi]; intros Hr.
  - now elim (Hr k (length rest)).
  - destruct (IH Hr) as (H1 & H2 & H3). rewrite <- app_assoc in H1, H2, H3. cbn [app] in *.
    split; [|split; assumption]. intros c Hc Hp. pose proof (H1 c Hc Hp) as Hl.
    rewrite app_length in Hl. cbn [length] in Hl.
    destruct (Nat.eq_dec (length c) (S (length p))) as [He|]; [|lia]. exfalso. apply Hn.
    destruct Hp as [x Hx]. change (p ++ b :: rest) with (p ++ [b] ++ rest) in Hx.
    rewrite app_assoc in Hx. symmetry in Hx.
    apply app_inj_len in Hx; [|rewrite app_length; cbn [length]; lia]. destruct Hx as [<- _]. exact Hc.
  - rewrite app_nil_r. split; [intros c _ Hp; now apply prefix_length in Hp|].
    split; [tauto|now right].
  - rewrite app_nil_r. split; [intros c _ Hp; now apply prefix_length in Hp|].
    split; [split; [contradiction|discriminate]|now left].
Qed.

(* The part of the shape of [represents] that is used here. *)
Lemma represents_parts cs t : represents sp cs t -> exists rows : list (list bool),
  length rows = length t /\ nth_error rows 0 = Some [] /\ NoDup rows /\
  (forall p, In p rows <-> chunk_node sp cs p) /\
  (forall row, In row t -> length row = (2 ^ sp)%nat) /\
  (forall i p chunk, nth_error rows i = Some p -> length chunk = sp ->
     exists row c r, nth_error t i = Some row /\ nth_error row (N.to_nat (val chunk)) = Some c /\
                     walk cs p chunk r /\ cell_says rows c r).
Proof.
  intros (rows & H1 & H2 & H3 & H4 & H5 & H6). exists rows.
  repeat (apply conj; [assumption|]). split; [now apply Forall_forall|].
  intros i p chunk Hi Hc. destruct (nth_error t i) as [row|] eqn:Er.
  - destruct (H6 i p chunk row Hi Er Hc) as (c & r & A). exists row, c, r. tauto.
  - exfalso. apply nth_error_None in Er. assert (nth_error rows i <> None) by congruence.
    apply nth_error_Some in H. lia.
Qed.

Definition blank_cell (c : option N * option N * N) : Prop := fst c = (None, None).

Lemma chop_zeros x : exists ch z, firstn sp (x ++ repeat false sp) = ch /\ length ch = sp /\
  (ch ++ z = x ++ repeat false sp).
Proof.
  exists (firstn sp (x ++ repeat false sp)), (skipn sp (x ++ repeat false sp)).
  split; [reflexivity|]. split; [|apply firstn_skipn].
  rewrite firstn_length, app_length, repeat_length. lia.
Qed.

Lemma prefix_cut {A} (c p x z : list A) : prefix c (p ++ x ++ z) -> (length c <= length (p ++ x))%nat ->
  prefix c (p ++ x).
Proof.
  intros H Hl. rewrite app_assoc in H. eapply prefix_total; [exact H| |exact Hl].
  now exists z.
Qed.

Lemma no_blank_complete cs t : prefix_free_codes cs -> ~ In [] cs -> represents sp cs t ->
  ((forall row c, In row t -> In c row -> ~ blank_cell c) <-> complete cs).
Proof.
  intros Hpf Hne Hrep. destruct (represents_parts cs t Hrep) as (rows & Hlen & Hroot & Hnd & Hin & Hsh & Hs).
  split.
  - intros Hb bits Hlong.
    assert (Hgo : forall n p x, bits = p ++ x -> In p rows -> (length x <= n)%nat ->
              exists c, In c cs /\ prefix c bits).
    { induction n as [|n IH]; intros p x Hx Hp Hn;
        destruct (chop_zeros x) as (ch & z & Hch & Hcl & Hz);
        apply In_nth_error in Hp; destruct Hp as [i Hi];
        destruct (Hs i p ch Hi Hcl) as (row & c & r & Er & Ec & Hw & Hsay);
        destruct r as [k u|q|].
      - apply walk_symbol_code in Hw. destruct Hw as (a & b & Ha & _ & _ & Hk).
        exists (p ++ a). apply nth_error_In in Hk. split; [exact Hk|]. subst bits.
        apply (prefix_cut _ _ _ (repeat false sp)); [|auto]. rewrite <- Hz, Ha. exists (b ++ z).
        now rewrite <- !app_assoc.
      - exfalso. apply walk_to in Hw. subst q. destruct Hsay as (j & Hj & _).
        apply nth_error_In in Hj. apply Hin in Hj. destruct Hj as [Hj|[(c0 & Hc0 & Hp0 & Hl0) _]].
        + apply app_eq_nil in Hj. destruct Hj as [_ ->]. simpl in Hcl. lia.
        + pose proof (Hlong c0 Hc0) as Hl. subst bits. rewrite app_length in *. lia.
      - exfalso. cbn in Hsay. subst c. apply (Hb row (None, None, 0)); [|eapply nth_error_In; eauto|reflexivity].
        eapply nth_error_In; eauto.
      - apply walk_symbol_code in Hw. destruct Hw as (a & b & Ha & _ & _ & Hk).
        exists (p ++ a). apply nth_error_In in Hk. split; [exact Hk|]. subst bits.
        apply (prefix_cut _ _ _ (repeat false sp)); [|auto]. rewrite <- Hz, Ha. exists (b ++ z).
        now rewrite <- !app_assoc.
      - apply walk_to in Hw. subst q. destruct Hsay as (j & Hj & _).
        apply nth_error_In in Hj. pose proof Hj as Hj0. apply Hin in Hj.
        destruct Hj as [Hj|[(c0 & Hc0 & Hp0 & Hl0) _]].
        + apply app_eq_nil in Hj. destruct Hj as [_ ->]. simpl in Hcl. lia.
        + pose proof (Hlong c0 Hc0) as Hl.
          assert (Hlx : (sp <= length x)%nat) by (subst bits; rewrite app_length in *; lia).
          assert (Hxx : exists y, x = ch ++ y).
          { rewrite firstn_app in Hch. replace (sp - length x)%nat with 0%nat in Hch by lia.
            rewrite firstn_O, app_nil_r in Hch. exists (skipn sp x). rewrite <- Hch.
            symmetry. apply firstn_skipn. }
          destruct Hxx as [y ->]. apply (IH (p ++ ch) y); auto.
          * now rewrite <- app_assoc.
          * rewrite app_length in Hn. lia.
      - exfalso. cbn in Hsay. subst c. apply (Hb row (None, None, 0)); [|eapply nth_error_In; eauto|reflexivity].
        eapply nth_error_In; eauto. }
    apply (Hgo (length bits) [] bits); auto. eapply nth_error_In; eauto.
  - intros Hc row c Hrow Hcell Hblank.
    apply In_nth_error in Hrow. destruct Hrow as [i Er]. pose proof (Hsh row (nth_error_In _ _ Er)) as Hrl.
    apply In_nth_error in Hcell. destruct Hcell as [x Ex].
    assert (Hxl : (x < 2 ^ sp)%nat) by (rewrite <- Hrl; apply nth_error_Some; congruence).
    assert (Hpow : 2 ^ N.of_nat sp = N.of_nat (2 ^ sp)) by now rewrite Nat2N.inj_pow.
    destruct (nth_error rows i) as [p|] eqn:Ei.
    2:{ apply nth_error_None in Ei. assert (Hi : nth_error t i <> None) by congruence.
        apply nth_error_Some in Hi. lia. }
    destruct (Hs i p (bits_of sp (N.of_nat x)) Ei (bits_of_length _ _)) as (row' & c' & r & Er' & Ec' & Hw & Hsay).
    rewrite val_bits_of_small in Ec' by (rewrite Hpow; lia). rewrite Nat2N.id in Ec'.
    assert (row' = row) by congruence. subst row'. assert (c' = c) by congruence. subst c'.
    set (ch := bits_of sp (N.of_nat x)) in *.
    destruct r as [k u|q|].
    { cbn in Hsay. subst c. discriminate Hblank. }
    { destruct Hsay as (j & _ & ->). discriminate Hblank. }
    apply walk_no_code in Hw; [|discriminate]. destruct Hw as (H1 & H2 & _).
    set (L := fold_right (fun c n => Nat.max (length c) n) 0%nat cs).
    assert (HL : forall c, In c cs -> (length c <= L)%nat).
    { unfold L. clear. induction cs as [|d cs IH]; intros c; [intros []|].
      intros [->|Hi]; cbn [fold_right]; [lia|]. specialize (IH c Hi). lia. }
    destruct (Hc ((p ++ ch) ++ repeat false L)) as (c0 & Hc0 & Hp0).
    { intros d Hd. rewrite app_length, repeat_length. specialize (HL d Hd). lia. }
    destruct (Nat.le_gt_cases (length c0) (length (p ++ ch))) as [Hle|Hgt].
    + assert (Hp1 : prefix c0 (p ++ ch)).
      { eapply prefix_total; [exact Hp0|now exists (repeat false L)|exact Hle]. }
      pose proof (H1 c0 Hc0 Hp1) as Hle2.
      assert (Hp2 : prefix c0 p) by (eapply prefix_total; [exact Hp1|now exists ch|exact Hle2]).
      assert (Hnode : chunk_node sp cs p) by (apply Hin; eapply nth_error_In; eauto).
      destruct Hnode as [->|[(d & Hd & Hpd & Hld) _]].
      * destruct c0; [contradiction|simpl in Hle2; lia].
      * assert (Hcd : prefix c0 d).
        { destruct Hp2 as [y ->], Hpd as [z ->]. exists (y ++ z). now rewrite app_assoc. }
        apply In_nth_error in Hc0, Hd. destruct Hc0 as [k1 K1], Hd as [k2 K2].
        pose proof (Hpf _ _ _ _ K1 K2 Hcd). subst k2. assert (c0 = d) by congruence. subst d. lia.
    + assert (Hi : inner cs (p ++ ch)).
      { exists c0. split; [exact Hc0|]. split; [|exact Hgt].
        eapply prefix_total; [now exists (repeat false L)|exact Hp0|lia]. }
      apply H2 in Hi. discriminate Hi.
Qed.

(* ------------------------------------------------------------------ *)
(* The matrix determines the code. *)
Lemma chunk_node_parent cs p ch : chunk_node sp cs (p ++ ch) -> length ch = sp -> chunk_node sp cs p.
Proof.
  intros [H|[(c & Hc & [x Hx] & Hl) [k Hk]]] Hch.
  - apply app_eq_nil in H. now left.
  - right. split.
    + exists c. split; [exact Hc|]. split; [exists (ch ++ x); now rewrite app_assoc|].
      rewrite app_length in Hl. lia.
    + exists (k - 1)%nat. rewrite app_length in Hk. rewrite Nat.mul_sub_distr_r. lia.
Qed.

Lemma rows_agree cs1 cs2 t rows1 rows2 : prefix_free_codes cs1 ->
  nth_error rows1 0 = Some [] -> NoDup rows1 -> (forall p, In p rows1 <-> chunk_node sp cs1 p) ->
  (forall i p chunk, nth_error rows1 i = Some p -> length chunk = sp ->
     exists row c r, nth_error t i = Some row /\ nth_error row (N.to_nat (val chunk)) = Some c /\
                     walk cs1 p chunk r /\ cell_says rows1 c r) ->
  nth_error rows2 0 = Some [] ->
  (forall i p chunk, nth_error rows2 i = Some p -> length chunk = sp ->
     exists row c r, nth_error t i = Some row /\ nth_error row (N.to_nat (val chunk)) = Some c /\
                     walk cs2 p chunk r /\ cell_says rows2 c r) ->
  forall n i p, length p = (n * sp)%nat -> nth_error rows1 i = Some p -> nth_error rows2 i = Some p.
Proof.
  intros Hpf R1 N1 I1 S1 R2 S2. induction n as [|n IH]; intros i p Hl Hi.
  - destruct p; [|simpl in Hl; lia]. rewrite (NoDup_nth _ _ _ _ N1 Hi R1). exact R2.
  - set (p0 := firstn (n * sp) p). set (ch := skipn (n * sp) p).
    assert (Hp : p = p0 ++ ch) by (symmetry; apply firstn_skipn).
    assert (Hch : length ch = sp) by (unfold ch; rewrite skipn_length; simpl in Hl; lia).
    assert (Hp0 : length p0 = (n * sp)%nat) by (unfold p0; rewrite firstn_length; simpl in Hl; lia).
    clearbody p0 ch. subst p.
    assert (Hnode : chunk_node sp cs1 (p0 ++ ch)) by (apply I1; eapply nth_error_In; eauto).
    assert (Hin0 : In p0 rows1) by (apply I1; eapply chunk_node_parent; eauto).
    apply In_nth_error in Hin0. destruct Hin0 as [i0 Hi0].
    destruct (S1 i0 p0 ch Hi0 Hch) as (row & c & r & Er & Ec & Hw & Hsay).
    destruct (S2 i0 p0 ch (IH _ _ Hp0 Hi0) Hch) as (row' & c' & r' & Er' & Ec' & Hw' & Hsay').
    assert (row' = row) by congruence. subst row'. assert (c' = c) by congruence. subst c'.
    destruct Hnode as [Hnil|[Hinn _]].
    { apply app_eq_nil in Hnil. destruct Hnil as [_ ->]. simpl in Hch. lia. }
    destruct r as [k u|q|].
    + exfalso. apply walk_symbol_code in Hw. destruct Hw as (a & b & Ha & _ & Hne & Hk).
      destruct Hinn as (d & Hd & [x Hx] & Hld). apply In_nth_error in Hd. destruct Hd as [k2 K2].
      assert (Hcd : prefix (p0 ++ a) d).
      { exists (b ++ x). rewrite Hx, Ha. now rewrite <- !app_assoc. }
      pose proof (Hpf _ _ _ _ Hk K2 Hcd). subst k2. assert (E : d = p0 ++ a) by congruence.
      rewrite E, Ha, !app_length in Hld. lia.
    + apply walk_to in Hw. subst q. destruct Hsay as (j & Hj & ->).
      pose proof (NoDup_nth _ _ _ _ N1 Hi Hj). subst j.
      destruct r' as [k' u'|q'|]; cbn in Hsay'; try discriminate Hsay'.
      destruct Hsay' as (j' & Hj' & E). apply walk_to in Hw'. subst q'.
      assert (j' = i) by (injection E; lia). now subst j'.
    + exfalso. apply walk_no_code in Hw; [|discriminate]. destruct Hw as (_ & H2 & _).
      apply H2 in Hinn. discriminate Hinn.
Qed.

Lemma code_agrees cs1 cs2 t k c : prefix_free_codes cs1 -> ~ In [] cs1 ->
  represents sp cs1 t -> represents sp cs2 t ->
  nth_error cs1 k = Some c -> nth_error cs2 k = Some c.
Proof.
  intros Hpf Hne Hr1 Hr2 Hk.
  destruct (represents_parts cs1 t Hr1) as (rows1 & _ & R1 & N1 & I1 & _ & S1).
  destruct (represents_parts cs2 t Hr2) as (rows2 & _ & R2 & _ & _ & _ & S2).
  set (n := ((length c - 1) / sp)%nat).
  assert (Hc0 : (0 < length c)%nat).
  { destruct c; [apply nth_error_In in Hk; contradiction|simpl; lia]. }
  assert (Hdm : (length c - 1 = sp * n + (length c - 1) mod sp)%nat) by (apply Nat.div_mod; lia).
  assert (Hmod : ((length c - 1) mod sp < sp)%nat) by (apply Nat.mod_upper_bound; lia).
  set (p := firstn (n * sp) c). set (x := skipn (n * sp) c).
  assert (Hp : c = p ++ x) by (symmetry; apply firstn_skipn).
  assert (Hpl : length p = (n * sp)%nat) by (unfold p; rewrite firstn_length; lia).
  assert (Hxl : (1 <= length x <= sp)%nat) by (unfold x; rewrite skipn_length; lia).
  clearbody p x n.
  assert (Hin : In p rows1).
  { apply I1. right. split; [|eauto]. exists c. split; [eapply nth_error_In; eauto|].
    split; [now exists x|]. rewrite Hp, app_length. lia. }
  apply In_nth_error in Hin. destruct Hin as [i Hi].
  assert (Hi2 : nth_error rows2 i = Some p) by (eapply (rows_agree cs1 cs2 t rows1 rows2); eauto).
  set (ch := x ++ repeat false (sp - length x)).
  assert (Hch : length ch = sp) by (unfold ch; rewrite app_length, repeat_length; lia).
  destruct (S1 i p ch Hi Hch) as (row & e & r & Er & Ec & Hw & Hsay).
  destruct (S2 i p ch Hi2 Hch) as (row' & e' & r' & Er' & Ec' & Hw' & Hsay').
  assert (row' = row) by congruence. subst row'. assert (e' = e) by congruence. subst e'.
  assert (Hws : walk cs1 p ch (Symbol k (length p + length ch - length c))).
  { apply (walk_sym_of sp sp_pos _ no_rows); auto.
    - exists (repeat false (sp - length x)). unfold ch. now rewrite Hp, <- app_assoc.
    - now exists x.
    - rewrite Hp, app_length. lia. }
  rewrite (walk_unique cs1 Hpf _ _ _ _ Hw Hws) in Hsay. cbn in Hsay. subst e.
  destruct r' as [k' u'|q'|]; cbn in Hsay'; try discriminate Hsay'.
  - assert (k' = k /\ u' = (length p + length ch - length c)%nat) as [-> ->] by (injection Hsay'; lia).
    apply walk_symbol_code in Hw'. destruct Hw' as (a & b & Ha & Hb & _ & Hk2).
    rewrite Hk2. f_equal. rewrite Hp. f_equal.
    unfold ch in Ha. apply app_inj_len in Ha; [destruct Ha; congruence|].
    apply (f_equal (@length bool)) in Ha. rewrite !app_length, repeat_length in Ha.
    rewrite Hp, app_length in Hb. lia.
  - destruct Hsay' as (j & _ & E). discriminate E.
Qed.

Lemma nth_error_ext' {A} (a b : list A) : (forall k, nth_error a k = nth_error b k) -> a = b.
Proof.
  revert b. induction a as [|x a IH]; intros [|y b] H; [reflexivity|specialize (H 0%nat); discriminate|specialize (H 0%nat); discriminate|].
  pose proof (H 0%nat) as H0. injection H0 as ->. f_equal. apply IH. intros k. exact (H (S k)).
Qed.

Lemma same_code cs1 cs2 t : prefix_free_codes cs1 -> prefix_free_codes cs2 -> ~ In [] cs1 -> ~ In [] cs2 ->
  represents sp cs1 t -> represents sp cs2 t -> cs1 = cs2.
Proof.
  intros P1 P2 E1 E2 R1 R2. apply nth_error_ext'. intros k.
  destruct (nth_error cs1 k) as [c|] eqn:K1.
  - symmetry. eapply code_agrees; [| |exact R1|exact R2|exact K1]; auto.
  - destruct (nth_error cs2 k) as [c|] eqn:K2; [|reflexivity].
    rewrite (code_agrees cs2 cs1 t k c P2 E2 R2 R1 K2) in K1. discriminate K1.
Qed.
End Matrix.
