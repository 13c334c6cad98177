(* Property theorems C119: how headers are compressed cannot be seen in their names and
   values.  The vocabulary is at the head of HpackChoice.v (asked, spelled, text), in
   HpackTrust.v (written) and HpackApi.v (op_ok). *)
From Coq Require Import String Ascii.
From Verif Require Import Base HuffModel HuffSpec HpackStatic HpackModel HpackSpec HpackApi HpackTab HpackDerived HpackTrust HpackChoice.
Open Scope list_scope.
Open Scope N_scope.

(* C119: a decoder in step with the encoder gets the names and values asked for, in order. *)
Theorem C119_received : forall m m' ops d t dst, wf t -> dtable d = t -> dlimit d < 2 ^ 32 -> Forall (op_ok (dlimit d)) ops ->
  exists d' hs n, hdecode m' d (written m t ops) dst = ((d', [], dst ++ hs), Ok n) /\ map fst hs = asked m t ops.
Proof. exact choice_received. Qed.
Print Assumptions C119_received.

(* C119: two connections on which the same names and values are asked for, with whatever
   flags, indices, size updates and tables, give the same names and values. *)
Theorem C119_invisible : forall m1 m1' m2 m2' ops1 ops2 d1 t1 d2 t2 dst1 dst2,
  wf t1 -> dtable d1 = t1 -> dlimit d1 < 2 ^ 32 -> Forall (op_ok (dlimit d1)) ops1 ->
  wf t2 -> dtable d2 = t2 -> dlimit d2 < 2 ^ 32 -> Forall (op_ok (dlimit d2)) ops2 ->
  asked m1 t1 ops1 = asked m2 t2 ops2 ->
  exists d1' hs1 n1 d2' hs2 n2, hdecode m1' d1 (written m1 t1 ops1) dst1 = ((d1', [], dst1 ++ hs1), Ok n1) /\
    hdecode m2' d2 (written m2 t2 ops2) dst2 = ((d2', [], dst2 ++ hs2), Ok n2) /\ map fst hs1 = map fst hs2.
Proof. exact choice_invisible. Qed.
Print Assumptions C119_invisible.

(* C119: what is asked for by calls that spell out name and value does not depend on flags,
   size updates or the table. *)
Theorem C119_asked_text : forall m ops, Forall spelled ops -> forall t, asked m t ops = concat (map text ops).
Proof. exact asked_text. Qed.
Print Assumptions C119_asked_text.

(* The same three headers three ways: spelled out, Huffman coded and best format with a table
   update in between, and by index into another table. *)
Definition choice_t1 : table := mkDyn [] 0 200.
Definition choice_t2 : table := mkDyn [(octets "k", octets "v"); (octets "x", octets "y")] 68 100.
Definition ways : list (table * list op) :=
  [(choice_t1, [Send (Literal (octets ":method") (octets "GET") 0); Send (Literal (octets "k") (octets "v") 8); Send (Literal (octets "k") (octets "w") 4)]);
   (choice_t1, [Send (Literal (octets ":method") (octets "GET") 20); Send (Literal (octets "k") (octets "v") 23); Resize 40;
                Send (Literal (octets "k") (octets "w") 20)]);
   (choice_t2, [Send (Indexed 2); Send (Indexed 62); Send (IndexedName 62 (octets "w") 6)])].
Definition three_lines : list field_line := [(octets ":method", octets "GET"); (octets "k", octets "v"); (octets "k", octets "w")].
Ltac ops_ok :=
  repeat (apply Forall_cons; [|]); try apply Forall_nil;
  try (cbn [op_ok input_ok sendable]; repeat split; try apply octets_bytes; vm_compute; (reflexivity || discriminate || exact Logic.I)).
Example C119_case : forall m m', Forall (fun w =>
  let d := set_table (decoder_with_dynamic_size 4096) (fst w) in
  wf (fst w) /\ Forall (op_ok 4096) (snd w) /\ asked m (fst w) (snd w) = three_lines /\
  exists d' hs n, hdecode m' d (written m (fst w) (snd w)) [] = ((d', [], hs), Ok n) /\ map fst hs = three_lines) ways.
Proof.
  intros m m'. unfold ways. repeat apply Forall_cons; try apply Forall_nil; cbv zeta; cbn [fst snd].
  all: refine (conj _ (conj _ (conj _ _))).
  1, 5, 9: unfold wf; repeat split; vm_compute; (reflexivity || discriminate).
  1, 4, 7: ops_ok.
  1, 3, 5: destruct m; vm_compute; reflexivity.
  all: destruct m, m'; (eexists _, _, _; split; vm_compute; reflexivity).
Qed.
(* Their octets differ. *)
Example C119_case_octets : forall m, map (fun w => List.length (written m (fst w) (snd w))) ways = [23; 11; 5]%nat.
Proof. intros m. destruct m; vm_compute; reflexivity. Qed.
