(* C111: what an encoder remembers. *)
From Verif Require Import Base HuffTables HuffModel HuffSpec Leb HpackStatic HpackModel
  HpackSpec HpackApi HpackInt HpackStr HpackTab HpackDec HpackEnc HpackDerived HpackMore HpackEncAlike.
Open Scope list_scope.
Open Scope N_scope.

(* Two encoders answer every sequence of encode and update_max_dynamic_size calls alike (same
   octets, same results) exactly when their dynamic tables agree position by position in the
   names and the entry sizes, agree in every entry that is not a repetition (of the static
   table or of a newer entry), and have the same maximum, or both one too small for any
   entry.  [enc_answers] runs the calls and forgets the final table. *)
Theorem C111_told_apart : forall m t1 t2, wf t1 -> wf t2 ->
  Forall (fun e => bytes (fst e) /\ bytes (snd e)) (inner t1) -> Forall (fun e => bytes (fst e) /\ bytes (snd e)) (inner t2) ->
  ((forall ops, Forall op_typed ops -> enc_answers m t1 ops = enc_answers m t2 ops) <->
   map fst (inner t1) = map fst (inner t2) /\
   map line_size (inner t1) = map line_size (inner t2) /\
   (forall i, nth_error (inner t1) i = nth_error (inner t2) i \/
      (exists e, nth_error (inner t1) i = Some e /\ In e (rfc_static ++ firstn i (inner t1))) /\
      (exists e, nth_error (inner t2) i = Some e /\ In e (rfc_static ++ firstn i (inner t2)))) /\
   (dmax t1 = dmax t2 \/ dmax t1 < 32 /\ dmax t2 < 32)).
Proof.
  intros m t1 t2 W1 W2 O1 O2. pose proof (enc_alike_iff m t1 t2 W1 W2 O1 O2) as H. unfold enc_alike, enc_same, same_lines, repeated in H.
  rewrite H. tauto.
Qed.
Print Assumptions C111_told_apart.

(* The premises hold of every encoder: here for two encoders built with any maximum and used
   in any two ways. *)
Theorem C111_histories : forall m max1 max2 ops1 ops2, max1 < 2 ^ 32 -> max2 < 2 ^ 32 -> Forall op_typed ops1 -> Forall op_typed ops2 ->
  let t1 := fst (fst (run_ops m (table_with_size max1) [] ops1)) in
  let t2 := fst (fst (run_ops m (table_with_size max2) [] ops2)) in
  ((forall ops, Forall op_typed ops -> enc_answers m t1 ops = enc_answers m t2 ops) <->
   map fst (inner t1) = map fst (inner t2) /\
   map line_size (inner t1) = map line_size (inner t2) /\
   (forall i, nth_error (inner t1) i = nth_error (inner t2) i \/
      (exists e, nth_error (inner t1) i = Some e /\ In e (rfc_static ++ firstn i (inner t1))) /\
      (exists e, nth_error (inner t2) i = Some e /\ In e (rfc_static ++ firstn i (inner t2)))) /\
   (dmax t1 = dmax t2 \/ dmax t1 < 32 /\ dmax t2 < 32)).
Proof.
  intros m max1 max2 ops1 ops2 M1 M2 O1 O2. apply C111_told_apart.
  - now apply run_ops_wf; [apply wf_new|].
  - now apply run_ops_wf; [apply wf_new|].
  - apply run_ops_octets; [now apply wf_new|exact O1|constructor].
  - apply run_ops_octets; [now apply wf_new|exact O2|constructor].
Qed.
Print Assumptions C111_histories.

(* In particular nothing but the entries and the maximum is remembered ... *)
Theorem C111_no_hidden_state : forall m t1 t2 ops, wf t1 -> wf t2 -> Forall op_typed ops ->
  inner t1 = inner t2 -> dmax t1 = dmax t2 -> enc_answers m t1 ops = enc_answers m t2 ops.
Proof.
  intros m t1 t2 ops W1 W2 Ho E M. apply (enc_same_alike m t1 t2 W1 W2); [|exact Ho]. split; [rewrite E; apply same_lines_refl|now left].
Qed.
Print Assumptions C111_no_hidden_state.

(* ... and, where no line occurs twice, all of the entries are. *)
Theorem C111_all_visible : forall m t1 t2, wf t1 -> wf t2 ->
  Forall (fun e => bytes (fst e) /\ bytes (snd e)) (inner t1) -> Forall (fun e => bytes (fst e) /\ bytes (snd e)) (inner t2) ->
  NoDup (rfc_static ++ inner t1) ->
  (forall ops, Forall op_typed ops -> enc_answers m t1 ops = enc_answers m t2 ops) -> inner t1 = inner t2.
Proof.
  intros m t1 t2 W1 W2 O1 O2 ND H. apply (C111_told_apart m t1 t2 W1 W2 O1 O2) in H. destruct H as (_ & _ & V & _).
  apply HpackAlike.nth_error_ext. intros i. destruct (V i) as [E|[(e & E & Hin) _]]; [exact E|exfalso].
  destruct (nth_error_split _ _ E) as (p & q & Ep & Lp). rewrite Ep in ND, Hin. subst i.
  rewrite firstn_app, Nat.sub_diag, firstn_O, app_nil_r, firstn_all in Hin. rewrite app_assoc in ND. apply NoDup_remove_2 in ND.
  apply ND. apply in_or_app. left. exact Hin.
Qed.
Print Assumptions C111_all_visible.

(* Encoders that are alike stay alike, through any calls. *)
Theorem C111_stays : forall m t1 t2 ops, wf t1 -> wf t2 ->
  Forall (fun e => bytes (fst e) /\ bytes (snd e)) (inner t1) -> Forall (fun e => bytes (fst e) /\ bytes (snd e)) (inner t2) -> Forall op_typed ops ->
  (forall ops', Forall op_typed ops' -> enc_answers m t1 ops' = enc_answers m t2 ops') ->
  forall ops', Forall op_typed ops' ->
    enc_answers m (fst (fst (run_ops m t1 [] ops))) ops' = enc_answers m (fst (fst (run_ops m t2 [] ops))) ops'.
Proof.
  intros m t1 t2 ops W1 W2 O1 O2 Ho H. pose proof (proj1 (enc_alike_iff m t1 t2 W1 W2 O1 O2) H) as S.
  destruct (enc_same_run m ops t1 t2 [] W1 W2 S Ho) as (a & b & out & rs & -> & -> & Wa & Wb & Sab). cbn [fst].
  exact (enc_same_alike m a b Wa Wb Sab).
Qed.
Print Assumptions C111_stays.

(* Instances.  Two encoders with different entries that no call tells apart: the third entry
   repeats the first in one, the second in the other.  Then two that differ in the value of an
   entry that is no repetition, with a call that shows it; and two whose maxima differ by one. *)
Example C111_holds_of :
  let t1 := mkDyn [([97], [98]); ([97], [99]); ([97], [98])] 102 200 in
  let t2 := mkDyn [([97], [98]); ([97], [99]); ([97], [99])] 102 200 in
  wf t1 /\ wf t2 /\ t1 <> t2 /\
  forall ops, Forall op_typed ops -> enc_answers Debug t1 ops = enc_answers Debug t2 ops.
Proof.
  cbv zeta. assert (W1 : wf (mkDyn [([97], [98]); ([97], [99]); ([97], [98])] 102 200)) by (split; [reflexivity|split; [vm_compute; discriminate|reflexivity]]).
  assert (W2 : wf (mkDyn [([97], [98]); ([97], [99]); ([97], [99])] 102 200)) by (split; [reflexivity|split; [vm_compute; discriminate|reflexivity]]).
  split; [exact W1|split; [exact W2|split; [discriminate|]]]. apply (enc_same_alike Debug _ _ W1 W2). split; [|now left].
  split; [reflexivity|split; [reflexivity|]]. intros [|[|[|i]]]; [now left|now left|right|left; now destruct i].
  split; (eexists; split; [reflexivity|apply in_or_app; right; cbn [firstn inner]]); [now left|right; now left].
Qed.
Example C111_value_shows :
  let t1 := mkDyn [([97], [98])] 34 200 in
  let t2 := mkDyn [([97], [99])] 34 200 in
  enc_answers Debug t1 [Send (Literal [97] [98] 16)] = ([190], [Ok tt]) /\
  enc_answers Debug t2 [Send (Literal [97] [98] 16)] = ([15; 47; 1; 98], [Ok tt]).
Proof. vm_compute. split; reflexivity. Qed.
Example C111_name_shows :
  let t1 := mkDyn [([97], [98])] 34 200 in
  let t2 := mkDyn [([100], [98])] 34 200 in
  enc_answers Debug t1 [Send (IndexedName 62 [] 4); Send (Literal [97] [] 16)] = ([126; 0; 190], [Ok tt; Ok tt]) /\
  enc_answers Debug t2 [Send (IndexedName 62 [] 4); Send (Literal [97] [] 16)] = ([126; 0; 0; 1; 97; 0], [Ok tt; Ok tt]).
Proof. vm_compute. split; reflexivity. Qed.
Example C111_maximum_shows :
  let t1 := mkDyn [([97], [98])] 34 68 in
  let t2 := mkDyn [([97], [98])] 34 67 in
  enc_answers Debug t1 [Send (Literal [97] [100] 4); Send (Indexed 63)] = ([64; 1; 97; 1; 100; 191], [Ok tt; Ok tt]) /\
  enc_answers Debug t2 [Send (Literal [97] [100] 4); Send (Indexed 63)] = ([64; 1; 97; 1; 100], [Ok tt; Err EInvalidIndex]).
Proof. vm_compute. split; reflexivity. Qed.
