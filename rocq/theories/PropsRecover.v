(* Property theorems C120: a decoder out of step that recovers by itself, or never does.  The
   vocabulary is at the head of HpackRecover.v (table_free, left_with, apart, crowded_out), in
   HpackTrust.v (written), HpackRetain.v (stored, is_send), HpackConn.v (headers) and
   HpackApi.v (op_ok). *)
From Coq Require Import String Ascii.
From Verif Require Import Base HuffModel HuffSpec HpackStatic HpackModel HpackSpec HpackApi HpackTab HpackEnc HpackDerived
  HpackRetain HpackConn HpackTrust HpackRecover.
Open Scope list_scope.
Open Scope N_scope.

(* C120, reading: calls that do not look at the stored entries (though they may store and
   evict) are read right by every decoder, whatever its table, and leave it with the table
   the encoder would have if it had started from the decoder's; the octets are the same too. *)
Theorem C120_read : forall m m' ops d t dst, wf t -> wf (dtable d) -> dlimit d < 2 ^ 32 -> Forall (op_ok (dlimit d)) ops ->
  forallb table_free ops = true ->
  written m (dtable d) ops = written m t ops /\
  exists n, hdecode m' d (written m t ops) dst =
    ((set_table d (left_with m (dtable d) ops), [], dst ++ headers (abs t) ops), Ok n).
Proof. exact free_read. Qed.
Print Assumptions C120_read.

(* C120, when it is in step again: with c the entries both tables begin with and x and y what
   follows (different from its first entry on), such calls without size updates bring the
   decoder in step exactly if the maximum sizes agree and the newest differing entries no
   longer fit behind the fields stored since and c. *)
Theorem C120_recovered_iff : forall m m' ops d t dst c x y,
  wf t -> wf (dtable d) -> dlimit d < 2 ^ 32 -> Forall (op_ok (dlimit d)) ops ->
  forallb table_free ops = true -> Forall is_send ops ->
  inner t = c ++ x -> inner (dtable d) = c ++ y -> apart x y ->
  exists d' n, hdecode m' d (written m t ops) dst = ((d', [], dst ++ headers (abs t) ops), Ok n) /\
    (dtable d' = left_with m t ops <->
     dmax (dtable d) = dmax t /\
     crowded_out (dmax t) (size (stored (headers (abs t) ops) ++ c)) x /\
     crowded_out (dmax t) (size (stored (headers (abs t) ops) ++ c)) y).
Proof. exact recovered_iff. Qed.
Print Assumptions C120_recovered_iff.

(* C120, in particular: once the fields stored fill the table up to less than 32 octets. *)
Theorem C120_recovers : forall m m' ops d t dst, wf t -> wf (dtable d) -> dlimit d < 2 ^ 32 -> Forall (op_ok (dlimit d)) ops ->
  forallb table_free ops = true -> Forall is_send ops ->
  dmax (dtable d) = dmax t -> dmax t < size (stored (headers (abs t) ops)) + 32 ->
  exists n, hdecode m' d (written m t ops) dst = ((set_table d (left_with m t ops), [], dst ++ headers (abs t) ops), Ok n).
Proof. exact recovers. Qed.
Print Assumptions C120_recovers.

(* C120: a size update n brings it in step exactly if the newest differing entries do not fit
   into n behind the common ones; the maximum sizes then agree, whatever they were. *)
Theorem C120_resized_iff : forall m m' n d t dst c x y,
  wf t -> wf (dtable d) -> dlimit d < 2 ^ 32 -> n <= dlimit d -> n <= MAX_UPDATE ->
  inner t = c ++ x -> inner (dtable d) = c ++ y -> apart x y ->
  exists d' k, hdecode m' d (written m t [Resize n]) dst = ((d', [], dst), Ok k) /\
    (dtable d' = left_with m t [Resize n] <-> crowded_out n (size c) x /\ crowded_out n (size c) y).
Proof. exact resized_iff. Qed.
Print Assumptions C120_resized_iff.

(* C120: with the best-format flag it may never recover: if the newest entries differ, the
   encoder's newest field (not one of the static table), sent any number of times with that
   flag, even together with the flag to store, is read as the decoder's newest entry each
   time, with result Ok, and neither side's state changes. *)
Theorem C120_never : forall m m' d t e e' rest rest' fl k dst, wf t -> wf (dtable d) ->
  inner t = e :: rest -> inner (dtable d) = e' :: rest' -> e <> e' -> ~ In e rfc_static ->
  input_ok (Literal (fst e) (snd e) fl) -> N.testbit fl 4 = true ->
  let ops := repeat (Send (Literal (fst e) (snd e) fl)) k in
  left_with m t ops = t /\
  headers (abs t) ops = repeat (fst e, snd e, 0) k /\
  hdecode m' d (written m t ops) dst = ((d, [], dst ++ repeat (fst e', snd e', 0) k), Ok (N.of_nat k)) /\
  (fst e', snd e') <> (fst e, snd e).
Proof. exact never_recovers. Qed.
Print Assumptions C120_never.

(* An encoder with [a: x, b: y] and a decoder with [a: x, c: z, b: y], both of maximum size
   110.  Storing one field of 34 octets (as an indexed name, static) leaves room for the
   differing entries; storing a second one does not. *)
Definition rec_t : table := mkDyn [(octets "a", octets "x"); (octets "b", octets "y")] 68 110.
Definition rec_d : decoder :=
  set_table (decoder_with_dynamic_size 4096) (mkDyn [(octets "a", octets "x"); (octets "c", octets "z"); (octets "b", octets "y")] 102 110).
Definition rec_one : list op := [Send (Literal (octets "k") (octets "v") 4); Send (Indexed 2); Send (Literal (octets "n") (octets "o") 8)].
Definition rec_two : list op := rec_one ++ [Send (IndexedName 4 (octets "/f") 6)].
Ltac ops_ok :=
  repeat (apply Forall_cons; [|]); try apply Forall_nil;
  try (cbn [op_ok input_ok sendable is_send]; repeat split; try apply octets_bytes; vm_compute; (reflexivity || discriminate || exact Logic.I)).
Example C120_case : forall m m',
  wf rec_t /\ wf (dtable rec_d) /\ Forall (op_ok 4096) rec_two /\ forallb table_free rec_two = true /\ Forall is_send rec_two /\
  apart [(octets "b", octets "y")] [(octets "c", octets "z"); (octets "b", octets "y")] /\
  dmax (dtable rec_d) = dmax rec_t /\
  size (stored (headers (abs rec_t) rec_one)) = 34 /\ size (stored (headers (abs rec_t) rec_two)) = 73 /\
  (exists d1 n1, hdecode m' rec_d (written m rec_t rec_one) [] = ((d1, [], headers (abs rec_t) rec_one), Ok n1) /\
     dtable d1 <> left_with m rec_t rec_one) /\
  (exists d2 n2, hdecode m' rec_d (written m rec_t rec_two) [] = ((d2, [], headers (abs rec_t) rec_two), Ok n2) /\
     dtable d2 = left_with m rec_t rec_two /\ List.length (inner (dtable d2)) = 3%nat).
Proof.
  intros m m'. refine (conj _ (conj _ (conj _ (conj _ (conj _ (conj _ (conj _ (conj _ (conj _ (conj _ _)))))))))).
  - unfold wf. repeat split; vm_compute; (reflexivity || discriminate).
  - unfold wf. repeat split; vm_compute; (reflexivity || discriminate).
  - unfold rec_two, rec_one. cbn [List.app]. ops_ok.
  - reflexivity.
  - unfold rec_two, rec_one. cbn [List.app]. ops_ok.
  - vm_compute. discriminate.
  - reflexivity.
  - vm_compute. reflexivity.
  - vm_compute. reflexivity.
  - destruct m, m'; (eexists _, _; split; [vm_compute; reflexivity|vm_compute; discriminate]).
  - destruct m, m'; (eexists _, _; split; [vm_compute; reflexivity|split; vm_compute; reflexivity]).
Qed.

(* A size update to 67 brings them in step, one to 68 does not (with the table of the encoder
   and one without its second entry). *)
Definition rec_d2 : decoder := set_table (decoder_with_dynamic_size 4096) (mkDyn [(octets "a", octets "x")] 34 90).
Example C120_resize_case : forall m m',
  wf (dtable rec_d2) /\ apart [(octets "b", octets "y")] [] /\
  dtable (fst (fst (fst (hdecode m' rec_d2 (written m rec_t [Resize 67]) [])))) = left_with m rec_t [Resize 67] /\
  inner (left_with m rec_t [Resize 67]) = [(octets "a", octets "x")] /\
  dtable (fst (fst (fst (hdecode m' rec_d2 (written m rec_t [Resize 68]) [])))) <> left_with m rec_t [Resize 68].
Proof.
  intros m m'. refine (conj _ (conj _ (conj _ (conj _ _)))).
  - unfold wf. repeat split; vm_compute; (reflexivity || discriminate).
  - exact Logic.I.
  - destruct m, m'; vm_compute; reflexivity.
  - destruct m; vm_compute; reflexivity.
  - destruct m, m'; vm_compute; discriminate.
Qed.

(* Never: the field a: x, with flags 0x14 (best format, store), at a decoder with c: z. *)
Definition rec_d3 : decoder := set_table (decoder_with_dynamic_size 4096) (mkDyn [(octets "c", octets "z")] 34 110).
Lemma not_static : ~ In (octets "a", octets "x") rfc_static.
Proof.
  assert (E : existsb (fun e => list_eqb (fst e) (octets "a") && list_eqb (snd e) (octets "x")) rfc_static = false) by (vm_compute; reflexivity).
  intros H. assert (E' : existsb (fun e => list_eqb (fst e) (octets "a") && list_eqb (snd e) (octets "x")) rfc_static = true).
  { apply existsb_exists. eexists. split; [exact H|]. vm_compute. reflexivity. }
  congruence.
Qed.
Example C120_never_case : forall m m',
  wf (dtable rec_d3) /\ input_ok (Literal (octets "a") (octets "x") 20) /\ N.testbit 20 4 = true /\ ~ In (octets "a", octets "x") rfc_static /\
  hdecode m' rec_d3 (written m rec_t (repeat (Send (Literal (octets "a") (octets "x") 20)) 3)) [] =
    ((rec_d3, [], repeat (octets "c", octets "z", 0) 3), Ok 3).
Proof.
  intros m m'. refine (conj _ (conj _ (conj _ (conj _ _)))).
  - unfold wf. repeat split; vm_compute; (reflexivity || discriminate).
  - cbn [input_ok]. repeat split; apply octets_bytes.
  - reflexivity.
  - exact not_static.
  - destruct m, m'; vm_compute; reflexivity.
Qed.
