(* Property theorems C115: a decoder whose table is out of step with the encoder's.  The
   vocabulary is at the head of HpackTrust.v (written, complete, truthful, covers,
   comparable), in HpackConn.v (headers) and in HpackApi.v (op_ok, run_ops, meaning). *)
From Coq Require Import String Ascii.
From Verif Require Import Base HuffModel HuffSpec HpackStatic HpackModel HpackSpec HpackApi HpackTab HpackEnc HpackDerived HpackConn HpackTrust.
Open Scope list_scope.
Open Scope N_scope.

(* C115, nothing is lost: exactly if the decoder's table begins with the encoder's entries
   and is at least as large (an encoder table below 32 octets never holds anything). *)
Theorem C115_complete_iff : forall m m' t d, wf t -> wf (dtable d) -> dlimit d < 2 ^ 32 ->
  (complete m m' t d <->
   prefix (inner t) (inner (dtable d)) /\ (dmax t <= dmax (dtable d) \/ dmax t < 32)).
Proof. exact complete_iff. Qed.
Print Assumptions C115_complete_iff.

(* C115, nothing wrong is reported: exactly if one of the two tables begins with the entries
   of the other, whatever the maximum sizes. *)
Theorem C115_truthful_iff : forall m m' t d, wf t -> wf (dtable d) -> dlimit d < 2 ^ 32 ->
  (truthful m m' t d <->
   prefix (inner t) (inner (dtable d)) \/ prefix (inner (dtable d)) (inner t)).
Proof. exact truthful_iff. Qed.
Print Assumptions C115_truthful_iff.

(* C115, and it stays so: after any calls both hold again of the tables then reached. *)
Theorem C115_complete_stays : forall m m' ops d t dst0,
  wf t -> wf (dtable d) -> dlimit d < 2 ^ 32 -> Forall (op_ok (dlimit d)) ops -> covers (dtable d) t ->
  exists t' out d' n,
    run_ops m t [] ops = (t', out, snd (meaning (abs t) ops)) /\
    hdecode m' d out dst0 = ((set_table d d', [], dst0 ++ headers (abs t) ops), Ok n) /\
    wf t' /\ wf d' /\ covers d' t'.
Proof. exact covers_session. Qed.
Print Assumptions C115_complete_stays.

(* C115, loss is noticed: with comparable tables, decoding delivers everything, or stops
   with InvalidIndex after a correct initial part. *)
Theorem C115_loss_noticed : forall m m' ops d t dst0,
  wf t -> wf (dtable d) -> dlimit d < 2 ^ 32 -> Forall (op_ok (dlimit d)) ops -> comparable t (dtable d) ->
  exists t' out d' rest hs1 hs2 v,
    run_ops m t [] ops = (t', out, snd (meaning (abs t) ops)) /\
    hdecode m' d out dst0 = ((set_table d d', rest, dst0 ++ hs1), v) /\
    headers (abs t) ops = hs1 ++ hs2 /\ wf t' /\ wf d' /\
    ((exists n, v = Ok n) /\ rest = [] /\ hs2 = [] /\ comparable t' d' \/ v = Err DInvalidIndex).
Proof. exact comparable_session. Qed.
Print Assumptions C115_loss_noticed.

(* Four decoders facing an encoder with the table [a: x, b: y] of at most 100 octets:
   one with a third entry and 200 octets: complete;
   one with the same entries but 70 octets: truthful, not complete;
   one with the newest entry only: truthful, not complete;
   one that missed the newest entry: neither. *)
Definition la : field_line := (octets "a", octets "x").
Definition lb : field_line := (octets "b", octets "y").
Definition lc : field_line := (octets "c", octets "z").
Definition trust_enc : table := mkDyn [la; lb] 68 100.
Definition dec_of (l : list field_line) (n : N) : decoder := set_table (decoder_with_dynamic_size 4096) (mkDyn l (size l) n).

Lemma wf_literal l s n : s = size l -> size l <= n -> n < 2 ^ 32 -> wf (mkDyn l s n).
Proof. intros -> H1 H2. split; [reflexivity|]. now split. Qed.

Example C115_case : forall m m',
  complete m m' trust_enc (dec_of [la; lb; lc] 200) /\
  truthful m m' trust_enc (dec_of [la; lb] 70) /\ ~ complete m m' trust_enc (dec_of [la; lb] 70) /\
  truthful m m' trust_enc (dec_of [la] 100) /\ ~ complete m m' trust_enc (dec_of [la] 100) /\
  ~ truthful m m' trust_enc (dec_of [lb] 100) /\ ~ complete m m' trust_enc (dec_of [lb] 100).
Proof.
  intros m m'.
  assert (We : wf trust_enc) by (apply wf_literal; vm_compute; (reflexivity || discriminate)).
  assert (Wd : forall l n, size l <= n -> n < 2 ^ 32 -> wf (dtable (dec_of l n))) by (intros l n H1 H2; now apply wf_literal).
  assert (Hl : forall l n, dlimit (dec_of l n) < 2 ^ 32) by (intros; reflexivity).
  assert (C : forall l n, size l <= n -> n < 2 ^ 32 ->
    (complete m m' trust_enc (dec_of l n) <-> prefix [la; lb] l /\ (100 <= n \/ 100 < 32))).
  { intros l n H1 H2. exact (C115_complete_iff m m' trust_enc (dec_of l n) We (Wd l n H1 H2) (Hl l n)). }
  assert (T : forall l n, size l <= n -> n < 2 ^ 32 ->
    (truthful m m' trust_enc (dec_of l n) <-> prefix [la; lb] l \/ prefix l [la; lb])).
  { intros l n H1 H2. exact (C115_truthful_iff m m' trust_enc (dec_of l n) We (Wd l n H1 H2) (Hl l n)). }
  assert (S3 : size [la; lb; lc] <= 200) by (vm_compute; discriminate).
  assert (S2 : size [la; lb] <= 70) by (vm_compute; discriminate).
  assert (S1 : size [la] <= 100) by (vm_compute; discriminate).
  assert (S0 : size [lb] <= 100) by (vm_compute; discriminate).
  assert (B1 : 200 < 2 ^ 32) by reflexivity. assert (B2 : 70 < 2 ^ 32) by reflexivity. assert (B3 : 100 < 2 ^ 32) by reflexivity.
  refine (conj _ (conj _ (conj _ (conj _ (conj _ (conj _ _)))))).
  - apply C; auto. split; [now exists [lc]|left; lia].
  - apply T; auto. left. now exists [].
  - rewrite C by auto. lia.
  - apply T; auto. right. now exists [lb].
  - rewrite C by auto. intros [[x X] _]. discriminate X.
  - rewrite T by auto. intros [[x X]|[x X]]; discriminate X.
  - rewrite C by auto. intros [[x X] _]. discriminate X.
Qed.

(* What going wrong looks like: the encoder refers to its newest entry, and the decoder that
   missed it takes the one before for it, with result Ok. *)
Example C115_wrong_case : forall m m',
  headers (abs trust_enc) [Send (Indexed 62)] = [(octets "a", octets "x", 0)] /\
  hdecode m' (dec_of [lb] 100) (written m trust_enc [Send (Indexed 62)]) [] =
    ((dec_of [lb] 100, [], [(octets "b", octets "y", 0)]), Ok 1).
Proof. intros m m'. split; [reflexivity|]. destruct m, m'; vm_compute; reflexivity. Qed.
