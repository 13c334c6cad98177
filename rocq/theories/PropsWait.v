(* C106: how long the HPACK decoder waits for the rest of a representation.
   Vocabulary: HpackModel.v and Base.v. *)
From Coq Require Import String Ascii.
From Verif Require Import Base HuffTables HuffModel HuffSpec Leb HpackStatic HpackModel
  HpackSpec HpackApi HpackInt HpackStr HpackTab HpackDec HpackDerived.
Open Scope list_scope.
Open Scope N_scope.

(* The decoder asks for more: IntegerUnderflow, or the panic of C15. *)
Definition asks_for_more {A} (o : outcome dec_error A) : Prop := o = Err DIntegerUnderflow \/ o = Panic.

(* Two strings of the greatest length an integer of five octets can announce with a seven-bit
   prefix, each behind five octets of length, and the octet in front; less one. *)
Definition longest_wait : N := 1 + 2 * (5 + (2 ^ 7 - 1 + (2 ^ 28 - 1))) - 1.

(* ------------------------------------------------------------------ *)
Lemma cut_len p hi bs : cut_int p hi bs -> (List.length bs <= 4)%nat.
Proof. intros (t & -> & _ & H). cbn [List.length]. lia. Qed.

Lemma int_fault_len p hi bs f : int_fault p hi bs f -> f = Cut \/ f = Short -> (List.length bs <= 4)%nat.
Proof. intros [H|H] [E|E]; try discriminate. eapply cut_len; eauto. Qed.

Lemma string_fault_len bs f : string_fault bs f -> f = Cut \/ f = Short -> N.of_nat (List.length bs) <= 2 ^ 28 + 130.
Proof.
  intros H E. change (2 ^ 28) with 268435456. destruct H as [|hi bs f Hh Hi|hi lb len body Hh Hi Hl|lb h rest syms tail _ _ _].
  - cbn. lia.
  - apply int_fault_len in Hi; [lia|exact E].
  - pose proof (int_wire_len _ _ _ _ _ Hi). apply int_wire_bound in Hi; [|unfold prefix_ok; lia].
    change (2 ^ 7 - 1 + 2 ^ 28) with 268435583 in Hi. rewrite app_length. lia.
  - destruct E; discriminate.
Qed.

Lemma string_wire_len5 h bs s : string_wire 5 code_padding h bs s -> N.of_nat (List.length bs) <= 2 ^ 28 + 131.
Proof.
  change (2 ^ 28) with 268435456.
  intros [lb t Hi|lb d t rest Hi _ _ _]; pose proof (int_wire_len _ _ _ _ _ Hi);
    (apply int_wire_bound in Hi; [|unfold prefix_ok; lia]);
    change (2 ^ 7 - 1 + 2 ^ 28) with 268435583 in Hi; rewrite app_length; lia.
Qed.

Lemma zero_len p hi bs v : 4 <= p -> int_wire 5 p hi bs v -> v = 0 -> List.length bs = 1%nat.
Proof.
  intros Hp H E. destruct H as [v Hv Hl|t r Ht Hl]; [reflexivity|].
  pose proof (N.pow_le_mono_r 2 4 p). change (2 ^ 4) with 16 in *. lia.
Qed.

Lemma kind_prefix_4 k : 4 <= kind_prefix k.
Proof. destruct k; cbn; lia. Qed.

Lemma repr_fault_len l bs f : repr_fault l bs f -> f = Cut \/ f = Short -> N.of_nat (List.length bs) <= longest_wait.
Proof.
  change longest_wait with 536871174.
  intros H E. destruct H as [bs f Hi|bs f Hi|k bs f Hi|k bi i rest Hi _ _|k bi i e rest f Hi _ _ Hs|k bi rest f Hi Hs|k bi hn bn n rest f Hi Hn Hs].
  - apply int_fault_len in Hi; [lia|exact E].
  - apply int_fault_len in Hi; [lia|exact E].
  - apply int_fault_len in Hi; [lia|exact E].
  - destruct E; discriminate.
  - apply int_wire_len in Hi. apply string_fault_len in Hs; [|exact E]. change (2 ^ 28 + 130) with 268435586 in Hs.
    rewrite app_length. lia.
  - apply int_wire_len in Hi. apply string_fault_len in Hs; [|exact E]. change (2 ^ 28 + 130) with 268435586 in Hs.
    rewrite app_length. lia.
  - apply zero_len in Hi; [|apply kind_prefix_4|reflexivity]. apply string_fault_len in Hs; [|exact E].
    apply string_wire_len5 in Hn. change (2 ^ 28 + 130) with 268435586 in Hs. change (2 ^ 28 + 131) with 268435587 in Hn.
    rewrite !app_length. lia.
Qed.

Lemma asks_fault L d rest s n : ends L d rest s -> asks_for_more (stop_outcome s n) ->
  exists f, repr_fault (entries d) rest f /\ (f = Cut \/ f = Short).
Proof.
  intros H A. destruct H as [|rest f H|b r rest e H1 H2].
  - destruct A; discriminate.
  - exists f. split; [exact H|]. destruct f; auto; destruct A; discriminate.
  - destruct e; destruct A; discriminate.
Qed.

(* C106: a decoder that asks for more holds less than one representation: whatever the
   peer has sent, at most [longest_wait] octets, about half a gibibyte, are left in the buffer ... *)
Theorem C106_bounded : forall m d buf dst d1 rest dst1 o, wf (dtable d) -> bytes buf ->
  hdecode m d buf dst = ((d1, rest, dst1), o) -> asks_for_more o -> N.of_nat (List.length rest) <= longest_wait.
Proof.
  intros m d buf dst d1 rest dst1 o Hw Hb E A.
  destruct (hdecode_total m d buf dst Hw Hb) as (prs & r0 & d' & hs & s & _ & _ & _ & He & _ & E3).
  rewrite E in E3. injection E3 as _ -> _ ->.
  destruct (asks_fault _ _ _ _ _ He A) as (f & Hf & C). exact (repr_fault_len _ _ _ Hf C).
Qed.
Print Assumptions C106_bounded.

(* ... also with decode_exact ... *)
Theorem C106_bounded_exact : forall m cap d buf dst d1 rest dst1 o, wf (dtable d) -> bytes buf ->
  hdecode_exact m cap d buf dst = ((d1, rest, dst1), o) -> asks_for_more o -> N.of_nat (List.length rest) <= longest_wait.
Proof.
  intros m cap d buf dst d1 rest dst1 o Hw Hb E A.
  destruct (hdecode_exact_total m cap d buf dst Hw Hb) as (prs & r0 & d' & hs & s & _ & _ & _ & _ & He & _ & E3).
  rewrite E in E3. injection E3 as _ -> _ ->.
  destruct He as [[_ ->]|[_ He]]; [destruct A; discriminate|].
  destruct (asks_fault _ _ _ _ _ He A) as (f & Hf & C). exact (repr_fault_len _ _ _ Hf C).
Qed.
Print Assumptions C106_bounded_exact.

(* ... so with more than that in the buffer each call makes progress, or fails for good
   (C25: whatever follows). *)
Theorem C106_progress : forall m d buf dst, wf (dtable d) -> bytes buf -> longest_wait < N.of_nat (List.length buf) ->
  exists d1 rest dst1 o, hdecode m d buf dst = ((d1, rest, dst1), o) /\
    ((List.length rest < List.length buf)%nat \/
     exists e, o = Err e /\ e <> DIntegerUnderflow /\
       forall more, bytes more -> exists d2, hdecode m d (buf ++ more) dst = ((d2, buf ++ more, dst1), Err e)).
Proof.
  intros m d buf dst Hw Hb Hl.
  destruct (hdecode_total m d buf dst Hw Hb) as (prs & rest & d' & hs & s & E1 & Hp & Hi & He & _ & E3).
  exists (set_table d (conc d')), rest, (dst ++ hs), (stop_outcome s (counted prs)). split; [exact E3|].
  destruct (Nat.lt_ge_cases (List.length rest) (List.length buf)) as [C|C]; [left; exact C|right].
  assert (W : wire_octets prs = []).
  { destruct (wire_octets prs); [reflexivity|]. rewrite E1 in C. cbn in C. rewrite app_length in C. lia. }
  rewrite W in E1. cbn [app] in E1. subst rest.
  destruct s as [|f|e].
  - inversion He; subst. cbn in Hl. change longest_wait with 536871174 in Hl. lia.
  - assert (N1 : ~ (f = Cut \/ f = Short)).
    { intros D. inversion He; subst. match goal with H : repr_fault _ _ _ |- _ => apply repr_fault_len in H; [lia|exact D] end. }
    assert (exists e, stop_outcome (Fault f) (counted prs) = Err e /\ e <> DIntegerUnderflow) as (e & Ee & Ne).
    { destruct f; cbn; try (eexists; split; [reflexivity|discriminate]); exfalso; apply N1; auto. }
    exists e. split; [exact Ee|]. split; [exact Ne|]. intros more Hm.
    rewrite Ee in E3. destruct (hdecode_final m m d buf more dst _ e Hw (proj2 (Forall_app _ _ _) (conj Hb Hm)) E3 Ne)
      as (d2 & r2 & hs2 & Q & X).
    pose proof (f_equal (fun z => snd (fst z)) Q) as Q1. pose proof (f_equal snd Q) as Q2. cbn [fst snd] in Q1, Q2.
    exists d2. rewrite X. congruence.
  - exists (refusal_error e). split; [reflexivity|]. assert (Ne : refusal_error e <> DIntegerUnderflow) by (destruct e; discriminate).
    split; [exact Ne|]. intros more Hm. cbn [stop_outcome] in E3.
    destruct (hdecode_final m m d buf more dst _ _ Hw (proj2 (Forall_app _ _ _) (conj Hb Hm)) E3 Ne)
      as (d2 & r2 & hs2 & Q & X).
    pose proof (f_equal (fun z => snd (fst z)) Q) as Q1. pose proof (f_equal snd Q) as Q2. cbn [fst snd] in Q1, Q2.
    exists d2. rewrite X. congruence.
Qed.
Print Assumptions C106_progress.

Lemma some_string n : exists s, bytes s /\ N.of_nat (List.length s) = n.
Proof.
  exists (repeat 97 (N.to_nat n)). split; [|rewrite repeat_length; apply N2Nat.id].
  apply Forall_forall. intros x Hx. apply repeat_spec in Hx. subst x. unfold is_byte. lia.
Qed.

(* The bound is reached, in every state of the decoder. *)
Theorem C106_reached : forall m d dst, wf (dtable d) -> exists buf, bytes buf /\
  N.of_nat (List.length buf) = longest_wait /\ hdecode m d buf dst = ((d, buf, dst), Err DIntegerUnderflow).
Proof.
  intros m d dst Hw.
  set (len := 2 ^ 7 - 1 + (2 ^ 28 - 1)).
  set (lb := [127; 255; 255; 255; 127]).
  assert (Hlb : int_wire 5 7 0 lb len).
  { subst lb len. refine (int_long 5 7 0 [255; 255; 255; 127] (2 ^ 28 - 1) _ _); [|cbn; lia].
    change (2 ^ 28 - 1) with (127 + 128 * (127 + 128 * (127 + 128 * 127))).
    change [255; 255; 255; 127] with [128 + 127; 128 + 127; 128 + 127; 127].
    apply leb_more; [lia|]. apply leb_more; [lia|]. apply leb_more; [lia|]. constructor. lia. }
  destruct (some_string len) as (name & Bn & Ln). destruct (some_string (len - 1)) as (value & Bv & Lv).
  assert (Bl : bytes lb) by (subst lb; repeat constructor; unfold is_byte; lia).
  exists ([0] ++ (lb ++ name) ++ (lb ++ value)).
  assert (Bb : bytes ([0] ++ (lb ++ name) ++ (lb ++ value))).
  { unfold bytes in *. rewrite !Forall_app. repeat split; auto. repeat constructor; unfold is_byte; lia. }
  split; [exact Bb|]. split.
  { rewrite !app_length, !Nat2N.inj_add, Ln, Lv. subst len lb. reflexivity. }
  assert (He : ends (dlimit d) (abs (dtable d)) ([0] ++ (lb ++ name) ++ (lb ++ value)) (Fault Short)).
  { apply ends_fault.
    refine (rf_value2 _ WithoutIndexing [0] false (lb ++ name) name (lb ++ value) Short _ _ _).
    - refine (int_short 5 4 0 0 _ _); [reflexivity|lia].
    - constructor. rewrite Ln. exact Hlb.
    - refine (sf_short 0 lb len value _ Hlb _); [lia|]. rewrite Lv. subst len. reflexivity. }
  pose proof (hdecode_ok m d [] ([0] ++ (lb ++ name) ++ (lb ++ value)) (abs (dtable d)) [] (Fault Short) dst Hw
    Bb (Forall_nil _) eq_refl He) as X.
  rewrite set_table_same, app_nil_r in X by exact Hw. exact X.
Qed.
Print Assumptions C106_reached.

(* A few cuts; the decoder waits for the rest. *)
Example C106_case : forall m,
  snd (hdecode m decoder_default [130; 0; 1; 97; 2; 98] []) = Err DIntegerUnderflow /\
  snd (hdecode m decoder_default [130; 64] []) = Panic /\
  snd (hdecode m decoder_default [130; 0; 127; 255; 255; 255; 127; 97] []) = Err DIntegerUnderflow /\
  snd (hdecode m decoder_default [130; 0; 127; 255; 255; 255; 255; 97] []) = Err DIntegerOverflow.
Proof. intros []; vm_compute; repeat split; reflexivity. Qed.
