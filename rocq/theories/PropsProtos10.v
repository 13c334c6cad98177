(* Property theorem C65, second part: repeated fields from encode to the packed conversion. *)
From Verif Require Import Base Leb ProtosModel ProtosSpec ProtosApi ProtosNum ProtosEnc ProtosConv ProtosDec ProtosDerived ProtosMore
  ProtosLength ProtosEvolve.
Open Scope N_scope.

(* [gathered ls l]: l is the repeated field (or byte string) whose occurrences, packed or
   single elements in any mixture, are ls in this order. *)
Definition empty_repeated (l : encoder_lit) : Prop :=
  match l with
  | EBytes v => v = []
  | EBoolVec v => v = []
  | EInt32Vec v | EInt64Vec v | ESInt32Vec v | ESInt64Vec v | ESFixed32Vec v | ESFixed64Vec v => v = []
  | EUInt32Vec v | EUInt64Vec v | EFixed32Vec v | EFixed64Vec v | EFloatVec v | EDoubleVec v => v = []
  | _ => False
  end.
Inductive gathered : list encoder_lit -> encoder_lit -> Prop :=
| gathered_none l : empty_repeated l -> gathered [] l
| gathered_more l1 ls l2 l : gathered ls l2 -> joined l1 l2 l -> gathered (l1 :: ls) l.

Lemma joined_wire l1 l2 l t1 t2 p q : lit_ok l1 -> lit_ok l2 -> joined l1 l2 l -> lit_wire l1 t1 p -> lit_wire l2 t2 q ->
  lit_ok l /\ lit_wire l LengthDelimited (p ++ q).
Proof.
  intros O1 O2 J W1 W2. split.
  - destruct J; cbn [lit_ok] in *; try exact I; try (apply Forall_app; auto); try (constructor; auto); apply bytes_app; auto.
  - destruct J; cbn [lit_wire] in *; destruct W1 as [_ W1], W2 as [_ W2]; subst; (split; [reflexivity|]);
      try reflexivity;
      match goal with
      | |- packed _ (?a ++ ?b) _ => apply packed_app; assumption
      | |- packed _ (?a :: ?b) _ => apply (packed_app _ [a] b); [apply packed_one|]; assumption
      end.
Qed.

Lemma gathered_wire fs : forall l ws, gathered (map snd fs) l -> Forall (fun f => lit_ok (snd f)) fs -> Forall2 carries fs ws ->
  lit_ok l /\ lit_wire l LengthDelimited (concat (map snd ws)).
Proof.
  induction fs as [|f fs IH]; intros l ws G O C.
  - inversion C; subst. cbn [map concat] in *. inversion G as [l0 He|]; subst.
    destruct l; cbn [empty_repeated] in *; try contradiction; subst; cbn [lit_ok lit_wire];
      (split; [try exact I; apply Forall_nil|split; [reflexivity|]]); try reflexivity; exists []; (split; [constructor|reflexivity]).
  - inversion C as [|f0 w fs0 ws0 Cf Cs]; subst. cbn [map concat] in *. inversion G as [|l1 ls l2 l0 G2 J]; subst.
    inversion O as [|f0 fs0 Of Os]; subst. destruct (IH l2 ws0 G2 Os Cs) as [O2 W2]. destruct Cf as [_ W1].
    exact (joined_wire _ _ _ _ _ _ _ Of O2 J W1 W2).
Qed.

(* C65: a message contains, among other fields and in any mixture of packed and single
   occurrences, the repeated field l under a tag.  A new decoder delivers the message, and
   the payloads found under the tag, put together, are the packed payload of l and convert
   to its elements. *)
Theorem C65_message : forall m fs bs ws tag l, Forall good_field fs -> message_reads m fs bs ws ->
  gathered (map snd (wanted (N.eqb tag) fs)) l ->
  let p := concat (map snd (seen (N.eqb tag) ws)) in lit_wire l LengthDelimited p /\ reads_back m l p.
Proof.
  intros m fs bs ws tag l G R J p.
  pose proof (by_tag m fs bs ws G R tag) as B.
  assert (C : Forall2 carries (wanted (N.eqb tag) fs) (seen (N.eqb tag) ws)).
  { clear -B. induction B as [|f w fs' ws' [H _] _ IH]; constructor; auto. }
  assert (O : Forall (fun f => lit_ok (snd f)) (wanted (N.eqb tag) fs)).
  { apply Forall_forall. intros f Hf. apply filter_In in Hf as [Hf _]. rewrite Forall_forall in G. now apply G. }
  destruct (gathered_wire _ _ _ J O C) as [Ol W]. split; [exact W|]. exact (reads_back_all m l _ _ Ol W).
Qed.
Print Assumptions C65_message.

(* Sent in one piece or in any number of pieces, the receiver sees the same payload. *)
Theorem C65_regrouped : forall m fs bs ws fs' bs' ws' tag l, Forall good_field fs -> Forall good_field fs' ->
  message_reads m fs bs ws -> message_reads m fs' bs' ws' ->
  gathered (map snd (wanted (N.eqb tag) fs)) l -> gathered (map snd (wanted (N.eqb tag) fs')) l ->
  concat (map snd (seen (N.eqb tag) ws)) = concat (map snd (seen (N.eqb tag) ws')).
Proof.
  intros m fs bs ws fs' bs' ws' tag l G G' R R' J J'.
  destruct (C65_message m fs bs ws tag l G R J) as [W _]. destruct (C65_message m fs' bs' ws' tag l G' R' J') as [W' _].
  now destruct (lit_wire_same _ _ _ _ _ W W').
Qed.
Print Assumptions C65_regrouped.

(* Elements -2 | 3 -4 | (none) | 5 under tag 7, around another field. *)
Example C65_message_case : forall m,
  let fs := [(7, ESInt32 (-2)); (7, ESInt32Vec [3; -4]%Z); (1, EBool true); (7, ESInt32Vec []); (7, ESInt32 5)] in
  gathered (map snd (wanted (N.eqb 7) fs)) (ESInt32Vec [-2; 3; -4; 5]%Z) /\ Forall good_field fs /\
  (exists bs, fst (encode_message fs (vec_sink [])) = vec_sink bs /\
     let ws := snd (fst (decode_fully m pdecoder_default bs [])) in
     concat (map snd (seen (N.eqb 7) ws)) = [3; 6; 7; 10] /\ to_i32_vec m (DSInt32Vec [3; 6; 7; 10]) = Ok [-2; 3; -4; 5]%Z).
Proof.
  intros m. cbv zeta. refine (conj _ (conj _ _)).
  - apply (gathered_more _ _ (ESInt32Vec [3; -4; 5]%Z)); [|constructor].
    apply (gathered_more _ _ (ESInt32Vec [5]%Z)); [|apply (j_sint32 [3; -4]%Z [5]%Z)].
    apply (gathered_more _ _ (ESInt32Vec [5]%Z)); [|apply (j_sint32 [] [5]%Z)].
    apply (gathered_more _ _ (ESInt32Vec [])); [|constructor]. now constructor.
  - assert (I : forall v, (-8 <= v < 8)%Z -> in_i 32 v) by (intros v H; unfold in_i; change (2 ^ (Z.of_N 32 - 1))%Z with 2147483648%Z; lia).
    assert (G : forall tag l, 1 <= tag < 2 ^ 29 -> lit_ok l -> payload_octets l < 2 ^ 64 -> good_field (tag, l)).
    { intros tag l A B C. apply sizable_good. exact (conj A (conj B C)). }
    repeat (apply Forall_cons; [apply G; [split; vm_compute; congruence | | vm_compute; reflexivity]|]); try apply Forall_nil;
      cbn [lit_ok]; try (apply I; lia); try exact Logic.I; repeat (apply Forall_cons; [apply I; lia|]); apply Forall_nil.
  - eexists. split; [vm_compute; reflexivity|]. destruct m; vm_compute; split; reflexivity.
Qed.
