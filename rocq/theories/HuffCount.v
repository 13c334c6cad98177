(* A complete prefix-free code of k codes has k - 1 inner nodes (C122). *)
From Verif Require Import Base HuffTree HuffMatrix.
Open Scope list_scope.

Definition clear_codes (cs : list (list bool)) : Prop :=
  NoDup cs /\ forall a b, In a cs -> In b cs -> prefix a b -> a = b.

Lemma clear_of cs : prefix_free_codes cs -> clear_codes cs.
Proof.
  intros H. split.
  - apply NoDup_nth_error. intros i j Hi E. destruct (nth_error cs i) as [a|] eqn:Ei.
    + apply (H i j a a); [exact Ei|now symmetry|now exists []; rewrite app_nil_r].
    + apply nth_error_None in Ei. lia.
  - intros a b Ha Hb Hp. apply In_nth_error in Ha, Hb. destruct Ha as [i Hi], Hb as [j Hj].
    pose proof (H i j a b Hi Hj Hp). subst j. congruence.
Qed.

(* The codes that start with [b], without their first bit. *)
Definition sub (b : bool) (cs : list (list bool)) : list (list bool) :=
  flat_map (fun c => match c with x :: c' => if Bool.eqb x b then [c'] else [] | [] => [] end) cs.

Lemma sub_in b cs c : In c (sub b cs) <-> In (b :: c) cs.
Proof.
  unfold sub. rewrite in_flat_map. split.
  - intros (d & Hd & Hc). destruct d as [|x d]; [contradiction|].
    destruct (Bool.eqb x b) eqn:E; [|contradiction]. apply Bool.eqb_prop in E. subst x.
    destruct Hc as [->|[]]. exact Hd.
  - intros H. exists (b :: c). split; [exact H|]. rewrite Bool.eqb_reflx. now left.
Qed.

Lemma sub_length cs : ~ In [] cs -> length cs = (length (sub false cs) + length (sub true cs))%nat.
Proof.
  unfold sub. induction cs as [|c cs IH]; intros H; [reflexivity|]. cbn [flat_map].
  rewrite !app_length. cbn [length]. rewrite IH by (intros X; apply H; now right).
  destruct c as [|[] c]; [elim H; now left| |]; cbn; lia.
Qed.

Lemma sub_clear b cs : clear_codes cs -> clear_codes (sub b cs).
Proof.
  intros [Hn Hp]. split.
  - clear Hp. induction Hn as [|c cs Hc Hn IH]; [constructor|]. cbn [sub flat_map].
    destruct c as [|x c]; [exact IH|]. destruct (Bool.eqb x b) eqn:E; [|exact IH].
    apply Bool.eqb_prop in E. subst x. cbn [app]. constructor; [|exact IH].
    change (~ In c (sub b cs)). now rewrite sub_in.
  - intros c d Hc Hd [x Hx]. apply sub_in in Hc, Hd.
    assert (E : b :: c = b :: d).
    { apply Hp; [exact Hc|exact Hd|]. exists x. cbn. now rewrite Hx. }
    now injection E.
Qed.

Lemma inner_sub b cs p : inner cs (b :: p) <-> inner (sub b cs) p.
Proof.
  split.
  - intros (c & Hc & [x Hx] & Hl). subst c. exists (p ++ x). rewrite sub_in.
    split; [exact Hc|]. split; [now exists x|]. cbn in Hl. lia.
  - intros (c & Hc & [x Hx] & Hl). exists (b :: c). rewrite <- sub_in. split; [exact Hc|].
    split; [exists x; now rewrite Hx|]. cbn. lia.
Qed.

Lemma count_inner : forall L cs, clear_codes cs -> (forall c, In c cs -> (length c <= L)%nat) ->
  (forall bits, length bits = L -> exists c, In c cs /\ prefix c bits) ->
  exists ns, NoDup ns /\ (forall p, In p ns <-> inner cs p) /\ length cs = S (length ns).
Proof.
  induction L as [|L IH]; intros cs Hcl Hlen Hcov.
  all: destruct (in_dec (list_eq_dec Bool.bool_dec) [] cs) as [Hnil|Hnil].
  1,3: assert (Hall : forall c, In c cs -> c = []) by
         (intros c Hc; symmetry; apply (proj2 Hcl); auto; now exists c);
       exists []; split; [constructor|]; split;
       [intros p; split; [contradiction|intros (c & Hc & _ & Hl); rewrite (Hall c Hc) in Hl; cbn in Hl; lia]|];
       destruct cs as [|c [|d cs]]; [contradiction|reflexivity|];
       exfalso; destruct Hcl as [Hn _]; inversion Hn as [|? ? Hx _]; subst; apply Hx; left;
       rewrite (Hall c), (Hall d); cbn; auto.
  - exfalso. destruct (Hcov [] eq_refl) as (c & Hc & Hp). apply prefix_length in Hp.
    destruct c; [contradiction|cbn in Hp; lia].
  - assert (Hb : forall b, exists ns, NoDup ns /\ (forall p, In p ns <-> inner (sub b cs) p) /\
                   length (sub b cs) = S (length ns)).
    { intros b. apply IH; [now apply sub_clear| |].
      - intros c Hc. apply sub_in in Hc. specialize (Hlen _ Hc). cbn in Hlen. lia.
      - intros bits Hl. destruct (Hcov (b :: bits)) as (c & Hc & [x Hx]); [cbn; lia|].
        destruct c as [|y c]; [contradiction|]. injection Hx as <- Hx.
        exists c. rewrite sub_in. split; [exact Hc|now exists x]. }
    destruct (Hb false) as (n0 & N0 & I0 & L0), (Hb true) as (n1 & N1 & I1 & L1).
    exists ([] :: map (cons false) n0 ++ map (cons true) n1). split; [|split].
    + constructor.
      * rewrite in_app_iff, !in_map_iff. intros [(x & E & _)|(x & E & _)]; discriminate E.
      * assert (Hm : forall b (n : list (list bool)), NoDup n -> NoDup (map (cons b) n)).
        { intros b n Hn. induction Hn as [|x n Hx Hn IHn]; cbn; constructor; [|exact IHn].
          rewrite in_map_iff. intros (y & E & Hy). injection E as ->. contradiction. }
        assert (Happ : forall a b : list (list bool), NoDup a -> NoDup b ->
                  (forall x, In x a -> ~ In x b) -> NoDup (a ++ b)).
        { intros a b Ha Hb' Hd. induction Ha as [|x a Hx Ha IHa]; cbn; [exact Hb'|].
          constructor.
          - rewrite in_app_iff. intros [H|H]; [contradiction|]. now apply (Hd x); [left|].
          - apply IHa. intros y Hy. apply Hd. now right. }
        apply Happ; auto. intros x. rewrite !in_map_iff. intros (y & <- & _) (z & E & _). discriminate E.
    + intros p. cbn [In]. rewrite in_app_iff, !in_map_iff. destruct p as [|b p].
      * split; [intros _|now left].
        destruct (Hcov (repeat false (S L)) (repeat_length _ _)) as (c & Hc & _).
        exists c. split; [exact Hc|]. split; [now exists c|]. destruct c; [contradiction|cbn; lia].
      * rewrite inner_sub. split.
        -- intros [E|[(x & E & Hx)|(x & E & Hx)]]; [discriminate E| |]; injection E as <- <-;
             [now apply I0|now apply I1].
        -- intros H. right. destruct b; [right; exists p; split; [reflexivity|now apply I1]
                                       |left; exists p; split; [reflexivity|now apply I0]].
    + rewrite (sub_length cs Hnil), L0, L1. cbn [length]. rewrite app_length, !map_length. lia.
Qed.

Lemma complete_inner cs : prefix_free_codes cs -> complete cs ->
  exists ns, NoDup ns /\ (forall p, In p ns <-> inner cs p) /\ length cs = S (length ns).
Proof.
  intros Hpf Hc. set (L := fold_right (fun c n => Nat.max (length c) n) 0%nat cs).
  assert (HL : forall c, In c cs -> (length c <= L)%nat).
  { unfold L. clear. induction cs as [|d cs IH]; intros c; [intros []|].
    intros [->|Hi]; cbn [fold_right]; [lia|]. specialize (IH c Hi). lia. }
  apply (count_inner L); [now apply clear_of|exact HL|].
  intros bits Hl. apply Hc. intros c Hi. rewrite Hl. auto.
Qed.

(* One bit per chunk: every inner node is a chunk node, and in a complete code without the
   empty string so is the root. *)
Lemma complete_nodes cs : prefix_free_codes cs -> ~ In [] cs -> complete cs ->
  exists ns, NoDup ns /\ (forall p, In p ns <-> chunk_node 1 cs p) /\ length cs = S (length ns).
Proof.
  intros Hpf Hne Hc. destruct (complete_inner cs Hpf Hc) as (ns & Hn & Hi & Hl).
  exists ns. split; [exact Hn|]. split; [|exact Hl]. intros p. rewrite Hi. split.
  - intros H. right. split; [exact H|]. exists (length p). lia.
  - intros [->|[H _]]; [|exact H].
    set (L := fold_right (fun c n => Nat.max (length c) n) 0%nat cs).
    assert (HL : forall c, In c cs -> (length c <= L)%nat).
    { unfold L. clear. induction cs as [|d cs IH]; intros c; [intros []|].
      intros [->|Hx]; cbn [fold_right]; [lia|]. specialize (IH c Hx). lia. }
    destruct (Hc (repeat false L)) as (c & Hx & _); [intros c Hx; rewrite repeat_length; auto|].
    exists c. split; [exact Hx|]. split; [now exists c|]. destruct c; [contradiction|cbn; lia].
Qed.
