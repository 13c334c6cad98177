(* Property theorems C78 and C79.  Vocabulary: the heads of HpackSecret.v (unindexed,
   alike, transcript) and HpackRelay.v (hop, relay, relay_all); sessions, op_typed and
   forwardable are in HpackApi.v. *)
From Coq Require Import String Ascii.
From Verif Require Import Base HuffModel HuffSpec HpackStatic HpackModel HpackSpec HpackApi HpackTab HpackEnc HpackDerived HpackSecret HpackRelay.
Open Scope list_scope.
Open Scope N_scope.

(* C78: fields sent without asking for indexing leave no trace.  Two sessions that
   differ only in such fields (all of their names, values and other flags may differ)
   look the same at every other call: same octets, same result ... *)
Theorem C78_no_trace : forall m ops ops' t, wf t -> Forall op_typed ops -> Forall op_typed ops' -> Forall2 alike ops ops' ->
  forall k o, nth_error ops k = Some o -> nth_error ops' k = Some o ->
  nth_error (transcript m t ops) k = nth_error (transcript m t ops') k.
Proof. exact no_trace. Qed.
Print Assumptions C78_no_trace.

(* ... (the transcript being what the session writes and returns, call by call) ... *)
Theorem C78_transcript : forall m ops t dst, wf t -> Forall op_typed ops ->
  snd (fst (run_ops m t dst ops)) = dst ++ concat (map fst (transcript m t ops)) /\
  snd (run_ops m t dst ops) = map snd (transcript m t ops).
Proof. exact transcript_ok. Qed.
Print Assumptions C78_transcript.

(* ... and leave the same encoder. *)
Theorem C78_same_state : forall m ops ops' t dst dst', wf t -> Forall op_typed ops -> Forall op_typed ops' -> Forall2 alike ops ops' ->
  fst (fst (run_ops m t dst ops)) = fst (fst (run_ops m t dst' ops')).
Proof. exact same_state. Qed.
Print Assumptions C78_same_state.

(* Conversely an unindexed literal without the best-format flag 0x10 is written without
   looking at the table, whatever others have put there ... *)
Theorem C78_own_octets : forall m t t' n v fl dst, fl < 256 -> N.testbit fl 2 = false -> N.testbit fl 4 = false ->
  snd (fst (hencode m t (Literal n v fl) dst)) = snd (fst (hencode m t' (Literal n v fl) dst)) /\
  snd (hencode m t (Literal n v fl) dst) = snd (hencode m t' (Literal n v fl) dst).
Proof. exact own_octets. Qed.
Print Assumptions C78_own_octets.

(* ... an indexed name looks at the table only to see whether the index exists ... *)
Theorem C78_own_octets_name : forall m t t' i v fl dst e e', fl < 256 -> N.testbit fl 2 = false ->
  table_get t i = Some e -> table_get t' i = Some e' ->
  snd (fst (hencode m t (IndexedName i v fl) dst)) = snd (fst (hencode m t' (IndexedName i v fl) dst)) /\
  snd (hencode m t (IndexedName i v fl) dst) = snd (hencode m t' (IndexedName i v fl) dst).
Proof. exact own_octets_name. Qed.
Print Assumptions C78_own_octets_name.

(* ... and without the Huffman flags the number of octets depends only on lengths. *)
Theorem C78_length_only : forall m t t' n n' v v' fl dst dst', fl < 256 ->
  N.testbit fl 0 = false -> N.testbit fl 1 = false -> N.testbit fl 2 = false -> N.testbit fl 4 = false ->
  List.length n = List.length n' -> List.length v = List.length v' -> List.length dst = List.length dst' ->
  List.length (snd (fst (hencode m t (Literal n v fl) dst))) = List.length (snd (fst (hencode m t' (Literal n' v' fl) dst'))) /\
  snd (hencode m t (Literal n v fl) dst) = snd (hencode m t' (Literal n' v' fl) dst').
Proof. exact length_only. Qed.
Print Assumptions C78_length_only.

(* Two sessions with different cookies between indexed fields, and their transcripts. *)
Definition cookie_session (v : string) : list op :=
  [Send (Literal (octets "a") (octets "b") 4); Send (Literal (octets "cookie") (octets v) 8);
   Send (Literal (octets "a") (octets "b") 20); Resize 40; Send (Indexed 62)].
Example C78_case : forall m,
  Forall2 alike (cookie_session "x=1") (cookie_session "session=42") /\
  Forall op_typed (cookie_session "x=1") /\ Forall op_typed (cookie_session "session=42") /\
  transcript m encoder_default (cookie_session "x=1") =
    [([64; 1; 97; 1; 98], Ok tt); ([16; 6] ++ octets "cookie" ++ [3] ++ octets "x=1", Ok tt); ([190], Ok tt);
     ([63; 9], Ok tt); ([190], Ok tt)] /\
  map fst (transcript m encoder_default (cookie_session "session=42")) =
    [[64; 1; 97; 1; 98]; [16; 6] ++ octets "cookie" ++ [10] ++ octets "session=42"; [190]; [63; 9]; [190]].
Proof.
  intros m. split; [repeat constructor|].
  assert (T : forall v, bytes (octets v)).
  { intros v. apply octets_bytes. }
  split; [|split].
  1,2: unfold cookie_session; repeat apply Forall_cons; try apply Forall_nil; cbn [op_typed input_ok];
    try (split; [apply T|split; [apply T|]]); reflexivity.
  destruct m; split; reflexivity.
Qed.

(* The restriction on 0x10 is needed: with it a never-indexed field is compared with
   the table, and an observer who can add entries can tell two values of equal length
   apart. *)
Example C78_best_format_leaks : forall m,
  let t := fst (fst (run_ops m encoder_default [] [Send (Literal (octets "pin") (octets "1234") 4)])) in
  snd (fst (hencode m t (Literal (octets "pin") (octets "1234") 24) [])) = [190] /\
  snd (fst (hencode m t (Literal (octets "pin") (octets "9876") 24) [])) = [31; 47; 4] ++ octets "9876".
Proof. intros []; split; reflexivity. Qed.

(* ------------------------------------------------------------------ *)
(* C79: header lists sent one after the other through any number of intermediaries
   that decode and encode them again with the reported flags, each hop with tables of
   any size and contents that agree at the two ends: every list arrives as it was sent,
   names, values, order and indexing marks, and all hops still agree. *)
Theorem C79_chain : forall m m' msgs hops, Forall hop_ok hops -> Forall (Forall forwardable) msgs ->
  exists hops', relay_all m m' hops msgs = (hops', map Some msgs) /\ Forall hop_ok hops' /\ List.length hops' = List.length hops.
Proof. intros m m'. exact (relay_all_ok m m'). Qed.
Print Assumptions C79_chain.

(* Three hops, one of them without a dynamic table and one with a single place. *)
Definition demo_hops : list hop :=
  [(encoder_default, decoder_default); (encoder_with_dynamic_size 0, decoder_with_dynamic_size 0);
   (encoder_with_dynamic_size 40, decoder_with_dynamic_size 40)].
Definition demo_msgs : list (list out_header) :=
  [[([97], [98], 4); ([99], [], 8)]; []; [([97], [98], 0); ([100], [101; 102], 4)]].
Example C79_case : forall m,
  Forall hop_ok demo_hops /\ Forall (Forall forwardable) demo_msgs /\
  relay_all m m demo_hops demo_msgs =
    ([(mkDyn [([100], [101; 102]); ([97], [98])] 69 4096, mkDec FiveBits 4096 (mkDyn [([100], [101; 102]); ([97], [98])] 69 4096));
      (mkDyn [] 0 0, mkDec FiveBits 0 (mkDyn [] 0 0));
      (mkDyn [([100], [101; 102])] 35 40, mkDec FiveBits 40 (mkDyn [([100], [101; 102])] 35 40))],
     map Some demo_msgs).
Proof.
  intros m. split; [|split].
  - unfold demo_hops. repeat apply Forall_cons; try apply Forall_nil;
      (split; [apply wf_new; reflexivity|split; reflexivity]).
  - unfold demo_msgs. repeat (apply Forall_cons || apply Forall_nil); unfold forwardable; cbn;
      (split; [repeat constructor|split; [repeat constructor|split; [discriminate|split; [discriminate|auto]]]]).
  - destruct m; reflexivity.
Qed.
