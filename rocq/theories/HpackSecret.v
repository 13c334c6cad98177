(* What fields sent without indexing leave behind, and what their octets depend on.

   The environment below is not code of the repository: a caller that hands fields to
   Encoder::encode / update_max_dynamic_size, and an observer of the octets of each
   call.  Its steps are the modelled API calls of HpackModel.v. *)
From Verif Require Import Base HuffModel HuffSpec HpackStatic HpackModel HpackSpec HpackApi HpackTab HpackEnc HpackDerived HpackMore.
Open Scope list_scope.
Open Scope N_scope.

(* ------------------------------------------------------------------ *)
(* Specification vocabulary. *)

(* The caller does not ask for the field to be added to the table (flag 0x4 clear). *)
Definition unindexed (f : encoder_input) : Prop :=
  match f with
  | Indexed _ => True
  | IndexedName _ _ fl | Literal _ _ fl => N.testbit fl 2 = false
  end.

(* The same call, or two calls with any two unindexed fields. *)
Inductive alike : op -> op -> Prop :=
| alike_same o : alike o o
| alike_secret f f' : unindexed f -> unindexed f' -> alike (Send f) (Send f').

(* What an observer sees: the octets and the result of each call. *)
Fixpoint transcript (m : mode) (t : table) (ops : list op) : list (list N * outcome enc_error unit) :=
  match ops with
  | [] => []
  | o :: ops' =>
      let '((t', bs), r) := match o with
                            | Send f => hencode m t f []
                            | Resize n => encoder_update_max m t n []
                            end in
      (bs, r) :: transcript m t' ops'
  end.

(* ------------------------------------------------------------------ *)
Lemma table_kept {A} (t : table) (x : list N * outcome enc_error A) : fst (fst (with_table t x)) = t.
Proof. destruct x as [s o]. reflexivity. Qed.

Lemma literal_kept m t n v fl dst : fl < 256 -> N.testbit fl 2 = false ->
  fst (fst (encode_literal m t n v fl dst)) = t.
Proof.
  intros Hf H2. unfold encode_literal.
  destruct (has_flag_bits fl Hf) as (_ & _ & -> & _ & _). rewrite H2.
  assert (X : forall d, fst (fst (binds (with_table t (encode_string m n (has_flag fl 1) d))
    (fun td' _ => with_table (fst td') (encode_string m v (has_flag fl 2) (snd td'))))) = t).
  { intros d. destruct (encode_string m n (has_flag fl 1) d) as [d1 []]; cbn [with_table binds fst snd]; try reflexivity.
    apply table_kept. }
  destruct (has_flag fl 8); cbn [binds fst snd]; apply X.
Qed.

Lemma indexed_kept t i dst : fst (fst (encode_indexed t i dst)) = t.
Proof. unfold encode_indexed. destruct (table_get t i); [apply table_kept|reflexivity]. Qed.

Lemma indexed_name_kept m t i v fl dst : fl < 256 -> N.testbit fl 2 = false ->
  fst (fst (encode_indexed_name m t i v fl dst)) = t.
Proof.
  intros Hf H2. unfold encode_indexed_name.
  destruct (has_flag_bits fl Hf) as (_ & _ & -> & _ & _). rewrite H2.
  destruct (table_get t i); [|reflexivity].
  assert (X : forall (x : list N * outcome enc_error unit), fst (fst (binds (with_table t x)
    (fun td _ => with_table (fst td) (encode_string m v (has_flag fl 2) (snd td))))) = t).
  { intros [d1 []]; cbn [with_table binds fst snd]; try reflexivity. apply table_kept. }
  destruct (has_flag fl 8); apply X.
Qed.

Theorem unindexed_kept m t f dst : wf t -> input_ok f -> unindexed f -> fst (fst (hencode m t f dst)) = t.
Proof.
  intros Hw Hf Hu. destruct f as [i|i v fl|n v fl]; cbn [hencode].
  - apply indexed_kept.
  - destruct Hf as (_ & _ & Hf). apply indexed_name_kept; assumption.
  - destruct Hf as (_ & _ & Hf). destruct (has_flag fl 16); [|apply literal_kept; assumption].
    destruct (@table_find_ok enc_error m t n v Hw) as (r & -> & _). cbn [bindd].
    destruct r as [[i []]|].
    + apply indexed_kept.
    + apply indexed_name_kept; assumption.
    + apply literal_kept; assumption.
Qed.

Lemma step_wf m t o : wf t -> op_typed o -> wf (fst (fst (op_step m t [] o))).
Proof.
  intros Hw Ho. destruct o as [f|n]; cbn [op_step].
  - exact (hencode_wf m t f [] Hw Ho).
  - destruct (encoder_update_ok m t n [] Hw Ho) as (b & -> & _ & _ & _ & W). exact W.
Qed.

Lemma alike_step m t o o' : wf t -> op_typed o -> op_typed o' -> alike o o' ->
  fst (fst (op_step m t [] o)) = fst (fst (op_step m t [] o')).
Proof.
  intros Hw Ho Ho' H. destruct H as [|f f' Hu Hu']; [reflexivity|]. cbn [op_step op_typed] in *.
  now rewrite (unindexed_kept m t f [] Hw Ho Hu), (unindexed_kept m t f' [] Hw Ho' Hu').
Qed.

Lemma transcript_cons m t o ops : transcript m t (o :: ops) =
  (snd (fst (op_step m t [] o)), snd (op_step m t [] o)) :: transcript m (fst (fst (op_step m t [] o))) ops.
Proof. destruct o as [f|n]; cbn [transcript op_step]; [destruct (hencode m t f []) as [[? ?] ?] | destruct (encoder_update_max m t n []) as [[? ?] ?]]; reflexivity. Qed.

Theorem no_trace m : forall ops ops' t, wf t -> Forall op_typed ops -> Forall op_typed ops' -> Forall2 alike ops ops' ->
  forall k o, nth_error ops k = Some o -> nth_error ops' k = Some o ->
  nth_error (transcript m t ops) k = nth_error (transcript m t ops') k.
Proof.
  intros ops ops' t Hw Ho Ho' H. revert t Hw Ho Ho'.
  induction H as [|a b ops ops' Hab _ IH]; intros t Hw Ho Ho' k o; [reflexivity|].
  inversion_clear Ho as [|? ? Ha Hr]. inversion_clear Ho' as [|? ? Hb Hr'].
  rewrite !transcript_cons, <- (alike_step m t a b Hw Ha Hb Hab).
  destruct k as [|k]; cbn [nth_error].
  - intros E E'. injection E as ->. injection E' as ->. reflexivity.
  - apply IH; auto. now apply step_wf.
Qed.

Lemma run_ops_table m : forall ops t dst, wf t -> Forall op_typed ops ->
  fst (fst (run_ops m t dst ops)) = fst (fst (run_ops m t [] ops)).
Proof.
  intros ops t dst Hw Ho. destruct (run_ops_same m m ops t dst [] Hw Ho) as (t' & out & rs & -> & ->). reflexivity.
Qed.

Theorem same_state m : forall ops ops' t dst dst', wf t -> Forall op_typed ops -> Forall op_typed ops' -> Forall2 alike ops ops' ->
  fst (fst (run_ops m t dst ops)) = fst (fst (run_ops m t dst' ops')).
Proof.
  intros ops ops' t dst dst' Hw Ho Ho' H. rewrite run_ops_table, (run_ops_table m ops' t dst') by assumption.
  revert t Hw Ho Ho'. induction H as [|a b ops ops' Hab _ IH]; intros t Hw Ho Ho'; [reflexivity|].
  inversion_clear Ho as [|? ? Ha Hr]. inversion_clear Ho' as [|? ? Hb Hr'].
  pose proof (alike_step m t a b Hw Ha Hb Hab) as E. pose proof (step_wf m t a Hw Ha) as W.
  rewrite !run_ops_cons.
  destruct (op_step m t [] a) as [[ta da] ra], (op_step m t [] b) as [[tb db] rb]. cbn [fst] in E, W. subst tb.
  pose proof (run_ops_table m ops ta da W Hr) as E1. pose proof (run_ops_table m ops' ta db W Hr') as E2.
  pose proof (IH ta W Hr Hr') as E3.
  destruct (run_ops m ta da ops) as [[? ?] ?], (run_ops m ta db ops') as [[? ?] ?]. cbn [fst] in *. congruence.
Qed.

(* The observer's octets are those of the session. *)
Theorem transcript_ok m : forall ops t dst, wf t -> Forall op_typed ops ->
  snd (fst (run_ops m t dst ops)) = dst ++ concat (map fst (transcript m t ops)) /\
  snd (run_ops m t dst ops) = map snd (transcript m t ops).
Proof.
  induction ops as [|o ops IH]; intros t dst Hw Ho; [now rewrite app_nil_r|].
  inversion_clear Ho as [|? ? H1 H2]. rewrite run_ops_cons, transcript_cons.
  assert (S : exists t1 bs r, wf t1 /\ op_step m t dst o = ((t1, dst ++ bs), r) /\ op_step m t [] o = ((t1, bs), r)).
  { pose proof (step_wf m t o Hw H1) as W. destruct o as [f|n]; cbn [op_step op_typed] in *.
    - destruct (hencode_same m m t f dst [] Hw H1) as (t1 & bs & r & E & E'). rewrite E' in W. eauto 10.
    - destruct (update_same m m t n dst [] Hw H1) as (t1 & bs & r & E & E'). rewrite E' in W. eauto 10. }
  destruct S as (t1 & bs & r & W & -> & ->). cbn [fst snd map concat].
  destruct (IH t1 (dst ++ bs) W H2) as [E1 E2].
  destruct (run_ops m t1 (dst ++ bs) ops) as [[? ?] ?]. cbn [fst snd] in *. subst. now rewrite app_assoc.
Qed.

(* ------------------------------------------------------------------ *)
(* What the octets of an unindexed literal depend on. *)
Lemma literal_own m t t' n v fl dst : fl < 256 -> N.testbit fl 2 = false ->
  snd (fst (encode_literal m t n v fl dst)) = snd (fst (encode_literal m t' n v fl dst)) /\
  snd (encode_literal m t n v fl dst) = snd (encode_literal m t' n v fl dst).
Proof.
  intros Hf H2. unfold encode_literal.
  destruct (has_flag_bits fl Hf) as (_ & _ & -> & _ & _). rewrite H2.
  destruct (has_flag fl 8); cbn [binds fst snd];
    (destruct (encode_string m n (has_flag fl 1) _) as [d1 []]; cbn [with_table binds fst snd]; try (split; reflexivity);
     destruct (encode_string m v (has_flag fl 2) d1) as [d2 o2]; split; reflexivity).
Qed.

Theorem own_octets m t t' n v fl dst : fl < 256 -> N.testbit fl 2 = false -> N.testbit fl 4 = false ->
  snd (fst (hencode m t (Literal n v fl) dst)) = snd (fst (hencode m t' (Literal n v fl) dst)) /\
  snd (hencode m t (Literal n v fl) dst) = snd (hencode m t' (Literal n v fl) dst).
Proof.
  intros Hf H2 H4. cbn [hencode].
  destruct (has_flag_bits fl Hf) as (_ & _ & _ & _ & ->). rewrite H4. now apply literal_own.
Qed.

Theorem own_octets_name m t t' i v fl dst e e' : fl < 256 -> N.testbit fl 2 = false ->
  table_get t i = Some e -> table_get t' i = Some e' ->
  snd (fst (hencode m t (IndexedName i v fl) dst)) = snd (fst (hencode m t' (IndexedName i v fl) dst)) /\
  snd (hencode m t (IndexedName i v fl) dst) = snd (hencode m t' (IndexedName i v fl) dst).
Proof.
  intros Hf H2 E E'. cbn [hencode]. unfold encode_indexed_name. rewrite E, E'.
  destruct (has_flag_bits fl Hf) as (_ & _ & -> & _ & _). rewrite H2.
  destruct (has_flag fl 8);
    match goal with |- context [encode_integer ?a ?b ?c ?d] => destruct (encode_integer a b c d) as [d1 []] end;
    cbn [with_table binds fst snd]; try (split; reflexivity);
    destruct (encode_string m v (has_flag fl 2) d1) as [d2 o2]; split; reflexivity.
Qed.

(* Strings that are not Huffman coded: the number of octets depends on lengths only. *)
Lemma string_length m data data' dst dst' : List.length data = List.length data' -> List.length dst = List.length dst' ->
  List.length (fst (encode_string m data false dst)) = List.length (fst (encode_string m data' false dst')) /\
  snd (encode_string m data false dst) = snd (encode_string m data' false dst').
Proof.
  intros Hl Hd. unfold encode_string. cbn [bindd]. rewrite <- Hl. destruct (U32_MAX <? _); [auto|].
  destruct (encode_integer_same (N.of_nat (List.length data)) 0 7 dst dst') as (bs & r & -> & ->).
  destruct r; cbn [binds fst snd]; rewrite ?app_length; split; try reflexivity; lia.
Qed.

Theorem length_only m t t' n n' v v' fl dst dst' : fl < 256 ->
  N.testbit fl 0 = false -> N.testbit fl 1 = false -> N.testbit fl 2 = false -> N.testbit fl 4 = false ->
  List.length n = List.length n' -> List.length v = List.length v' -> List.length dst = List.length dst' ->
  List.length (snd (fst (hencode m t (Literal n v fl) dst))) = List.length (snd (fst (hencode m t' (Literal n' v' fl) dst'))) /\
  snd (hencode m t (Literal n v fl) dst) = snd (hencode m t' (Literal n' v' fl) dst').
Proof.
  intros Hf H0 H1 H2 H4 Hn Hv Hd. cbn [hencode]. unfold encode_literal.
  destruct (has_flag_bits fl Hf) as (-> & -> & -> & _ & ->). rewrite H0, H1, H2, H4.
  assert (X : forall b, snd (encode_string m n false (dst ++ [b])) = snd (encode_string m n' false (dst' ++ [b])) /\
    List.length (fst (encode_string m n false (dst ++ [b]))) = List.length (fst (encode_string m n' false (dst' ++ [b])))).
  { intros b. destruct (string_length m n n' (dst ++ [b]) (dst' ++ [b]) Hn) as [A B]; [rewrite !app_length; now f_equal|auto]. }
  destruct (has_flag fl 8); cbn [binds fst snd];
    match goal with |- context [dst ++ [?b]] => destruct (X b) as [A B] end;
    destruct (encode_string m n false _) as [d1 r1], (encode_string m n' false _) as [d1' r1']; cbn [fst snd] in A, B; subst r1';
    destruct r1; cbn [with_table binds fst snd]; try (split; [assumption|reflexivity]);
    destruct (string_length m v v' d1 d1' Hv B) as [A' B'];
    destruct (encode_string m v false d1) as [d2 r2], (encode_string m v' false d1') as [d2' r2']; cbn [fst snd] in *; auto.
Qed.
