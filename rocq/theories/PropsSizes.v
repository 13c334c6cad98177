(* Property theorems C83: an encoder and a decoder whose tables differ.  The vocabulary is
   in HpackApi.v (op_ok, run_ops, meaning) and at the head of HpackSizes.v (holds_more). *)
From Coq Require Import String Ascii.
From Verif Require Import Base HuffModel HuffSpec HpackStatic HpackModel HpackSpec HpackApi HpackTab HpackEnc HpackDerived HpackSizes.
Open Scope list_scope.
Open Scope N_scope.

(* C83, larger decoder table: everything arrives, and the relation between the tables is
   kept, so that the next buffers are read too. *)
Theorem C83_larger : forall m m' ops d t dst0,
  wf t -> wf (dtable d) -> dlimit d < 2 ^ 32 -> Forall (op_ok (dlimit d)) ops ->
  holds_more (abs t) (abs (dtable d)) ->
  exists t' out d' n,
    run_ops m t [] ops = (t', out, snd (meaning (abs t) ops)) /\
    hdecode m' d out dst0 = ((set_table d d', [], dst0 ++ snd (fst (meaning (abs t) ops))), Ok n) /\
    wf t' /\ wf d' /\ holds_more (abs t') (abs d').
Proof. exact larger_decoder. Qed.
Print Assumptions C83_larger.

(* C83, smaller decoder table: the headers appended are a correct initial part of the headers
   sent; they are all of them, or the decoder stops with InvalidIndex.  It never takes an
   index for another header. *)
Theorem C83_smaller : forall m m' ops d t dst0,
  wf t -> wf (dtable d) -> dlimit d < 2 ^ 32 -> Forall (op_ok (dlimit d)) ops ->
  holds_more (abs (dtable d)) (abs t) ->
  exists t' out d' rest hs1 hs2 v,
    run_ops m t [] ops = (t', out, snd (meaning (abs t) ops)) /\
    hdecode m' d out dst0 = ((set_table d d', rest, dst0 ++ hs1), v) /\
    snd (fst (meaning (abs t) ops)) = hs1 ++ hs2 /\ wf d' /\
    ((exists n, v = Ok n) /\ rest = [] /\ hs2 = [] /\ holds_more (abs d') (abs t') \/ v = Err DInvalidIndex).
Proof. exact smaller_decoder. Qed.
Print Assumptions C83_smaller.

(* C83, fresh pair with maximum sizes a <= b, as the constructors make them. *)
Theorem C83_fresh : forall m m' a b ops, a <= b -> b < 2 ^ 32 -> Forall (op_ok b) ops ->
  exists t' out d' n,
    run_ops m (encoder_with_dynamic_size a) [] ops = (t', out, snd (meaning (mkdyn [] a) ops)) /\
    hdecode m' (decoder_with_dynamic_size b) out [] =
      ((set_table (decoder_with_dynamic_size b) d', [], snd (fst (meaning (mkdyn [] a) ops))), Ok n).
Proof.
  intros m m' a b ops Hab Hb Ho.
  assert (Ha : a < 2 ^ 32) by (eapply N.le_lt_trans; eassumption).
  destruct (larger_decoder m m' ops (decoder_with_dynamic_size b) (encoder_with_dynamic_size a) []
    (wf_new a Ha) (wf_new b Hb) Hb Ho) as (t' & out & d' & n & H1 & H2 & _).
  - split; [exists []; reflexivity|exact Hab].
  - exists t', out, d', n. auto.
Qed.
Print Assumptions C83_fresh.

(* C83, recovery: after the encoder signals size 0 the pair works whatever the two tables
   held before, and what the encoder writes no longer depends on its past. *)
Theorem C83_resync : forall m m' ops d t dst0,
  wf t -> wf (dtable d) -> dlimit d < 2 ^ 32 -> Forall (op_ok (dlimit d)) ops ->
  exists t' out n,
    run_ops m t [] (Resize 0 :: ops) = (t', out, Ok tt :: snd (meaning (mkdyn [] 0) ops)) /\
    abs t' = fst (fst (meaning (mkdyn [] 0) ops)) /\
    hdecode m' d out dst0 = ((set_table d t', [], dst0 ++ snd (fst (meaning (mkdyn [] 0) ops))), Ok n) /\
    forall t2, wf t2 -> run_ops m t2 [] (Resize 0 :: ops) = (t', out, Ok tt :: snd (meaning (mkdyn [] 0) ops)).
Proof. exact resync. Qed.
Print Assumptions C83_resync.

(* Three headers of size 34 and a reference to the newest and to the second newest of them.
   The encoder with 70 octets has two of them in its table; the decoder with 4096 octets all
   three, and reads the references alike; the decoder with 40 octets only one, and stops at
   the second reference; after a size update to 0 it goes on. *)
Definition sizes_ops : list op :=
  [Send (Literal (octets "a") (octets "x") 4); Send (Literal (octets "b") (octets "y") 4);
   Send (Literal (octets "c") (octets "z") 4); Send (Indexed 62); Send (Indexed 63)].

Example C83_case : forall m m',
  Forall (op_ok 40) sizes_ops /\
  (let '(t', out, rs) := run_ops m (encoder_with_dynamic_size 70) [] sizes_ops in
   rs = [Ok tt; Ok tt; Ok tt; Ok tt; Ok tt] /\
   entries (abs t') = [([99], [122]); ([98], [121])] /\
   hdecode m' (decoder_with_dynamic_size 4096) out [] =
     ((set_table (decoder_with_dynamic_size 4096) (mkDyn [([99], [122]); ([98], [121]); ([97], [120])] 102 4096), [],
       [([97], [120], 4); ([98], [121], 4); ([99], [122], 4); ([99], [122], 0); ([98], [121], 0)]), Ok 17) /\
   hdecode m' (decoder_with_dynamic_size 40) out [] =
     ((set_table (decoder_with_dynamic_size 40) (mkDyn [([99], [122])] 34 40), [191],
       [([97], [120], 4); ([98], [121], 4); ([99], [122], 4); ([99], [122], 0)]), Err DInvalidIndex) /\
   hdecode m' (set_table (decoder_with_dynamic_size 40) (mkDyn [([99], [122])] 34 40))
     (snd (fst (run_ops m t' [] [Resize 0; Resize 40; Send (Literal (octets "d") (octets "w") 4); Send (Indexed 62)]))) [] =
     ((set_table (decoder_with_dynamic_size 40) (mkDyn [([100], [119])] 34 40), [], [([100], [119], 4); ([100], [119], 0)]), Ok 6)).
Proof.
  intros m m'. split.
  { assert (B : forall s, bytes (octets s)) by exact octets_bytes.
    unfold sizes_ops. repeat (apply Forall_cons; [|]); try apply Forall_nil; cbn [op_ok input_ok sendable];
    repeat split; try apply B; vm_compute; (reflexivity || discriminate). }
  destruct m, m'; vm_compute; repeat split; reflexivity.
Qed.
