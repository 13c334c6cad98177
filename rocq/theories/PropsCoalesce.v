(* C113: runs of table size updates. *)
From Verif Require Import Base HuffTables HuffModel HuffSpec Leb HpackStatic HpackModel
  HpackSpec HpackApi HpackInt HpackStr HpackTab HpackDec HpackEnc HpackDerived HpackMore HpackRetain HpackCoalesce.
Open Scope list_scope.
Open Scope N_scope.

(* RFC 7541 section 4.2: of the sizes taken between two blocks only the smallest and the last
   need be signalled.  [fold_left N.min ns n] is the smallest of n :: ns, [last ns n] the last.
   On the encoder: updating to the smallest and then to the last leaves the encoder as all the
   updates do, *)
Theorem C113_encoder : forall m t dst dst' n ns, wf t -> Forall (fun x => x < 2 ^ 32) (n :: ns) ->
  fst (fst (run_ops m t dst (map Resize (n :: ns)))) =
  fst (fst (run_ops m t dst' [Resize (fold_left N.min ns n); Resize (last ns n)])).
Proof.
  intros m t dst dst' n ns W H. destruct (run_updates m (n :: ns) t dst W H) as (o1 & ->).
  assert (H2 : Forall (fun x => x < 2 ^ 32) [smallest n ns; final n ns]).
  { repeat constructor; apply (proj1 (Forall_forall _ _) H); [apply smallest_in|apply final_in]. }
  destruct (run_updates m _ t dst' W H2) as (o2 & E2). cbn [map] in E2. unfold smallest, final in E2. rewrite E2. cbn [fst].
  now rewrite resized_coalesce.
Qed.
Print Assumptions C113_encoder.

(* and on the decoder a block that starts with all the updates is read as the block that starts
   with these two: same headers, same rest, same decoder, same result (count included). *)
Theorem C113_decoder : forall m d n ns long short rest dst, wf (dtable d) -> Forall (fun x => x <= dlimit d) (n :: ns) ->
  wires 5 code_padding long -> reprs long = map RSize (n :: ns) ->
  wires 5 code_padding short -> reprs short = [RSize (fold_left N.min ns n); RSize (last ns n)] ->
  bytes (wire_octets long ++ rest) -> bytes (wire_octets short ++ rest) ->
  hdecode m d (wire_octets long ++ rest) dst = hdecode m d (wire_octets short ++ rest) dst.
Proof.
  intros m d n ns long short rest dst W H P1 R1 P2 R2 B1 B2.
  rewrite (decode_updates m d long (n :: ns) rest dst W B1 (conj P1 R1) H).
  rewrite (decode_updates m d short [smallest n ns; final n ns] rest dst W B2 (conj P2 R2)); [now rewrite resized_coalesce|].
  repeat constructor; apply (proj1 (Forall_forall _ _) H); [apply smallest_in|apply final_in].
Qed.
Print Assumptions C113_decoder.

(* The last update alone does exactly when the smallest evicts no more than the last does;
   so always when the last is the smallest. *)
Theorem C113_last_alone : forall m t dst dst' n ns, wf t -> Forall (fun x => x < 2 ^ 32) (n :: ns) ->
  (fst (fst (run_ops m t dst (map Resize (n :: ns)))) = fst (fst (run_ops m t dst' [Resize (last ns n)])) <->
   fit (fold_left N.min ns n) (inner t) = fit (last ns n) (inner t)).
Proof.
  intros m t dst dst' n ns W H. destruct (run_updates m (n :: ns) t dst W H) as (o1 & ->).
  assert (H2 : Forall (fun x => x < 2 ^ 32) [final n ns]).
  { repeat constructor; apply (proj1 (Forall_forall _ _) H); apply final_in. }
  destruct (run_updates m _ t dst' W H2) as (o2 & E2). cbn [map] in E2. unfold final in E2. rewrite E2. cbn [fst].
  pose proof (resized_last (abs t) n ns) as L. unfold final, smallest in L. cbn [abs entries] in L. rewrite <- L. split.
  - intros E. apply (f_equal abs) in E. now rewrite !abs_conc in E.
  - intros E. now rewrite E.
Qed.
Print Assumptions C113_last_alone.
Theorem C113_lowered : forall m t dst dst' n ns, wf t -> Forall (fun x => x < 2 ^ 32) (n :: ns) -> Forall (fun x => last ns n <= x) (n :: ns) ->
  fst (fst (run_ops m t dst (map Resize (n :: ns)))) = fst (fst (run_ops m t dst' [Resize (last ns n)])).
Proof.
  intros m t dst dst' n ns W H Hl. apply C113_last_alone; auto. f_equal. apply N.le_antisymm.
  - apply (smallest_min ns n), (final_in ns n).
  - exact (proj1 (Forall_forall _ _) Hl _ (smallest_in ns n)).
Qed.
Print Assumptions C113_lowered.

(* Instances: three updates as two, on a table of two entries; and the last alone, which keeps
   an entry that the others have evicted. *)
Example C113_holds_of :
  let t := mkDyn [([97], [98]); ([99], [100])] 68 200 in
  wf t /\ fold_left N.min [40; 100] 80 = 40 /\ last [40; 100] 80 = 100 /\
  run_ops Debug t [] [Resize 80; Resize 40; Resize 100] = (mkDyn [([97], [98])] 34 100, [63; 49; 63; 9; 63; 69], [Ok tt; Ok tt; Ok tt]) /\
  run_ops Debug t [] [Resize 40; Resize 100] = (mkDyn [([97], [98])] 34 100, [63; 9; 63; 69], [Ok tt; Ok tt]) /\
  run_ops Debug t [] [Resize 100] = (mkDyn [([97], [98]); ([99], [100])] 68 100, [63; 69], [Ok tt]).
Proof. cbv zeta. split; [split; [reflexivity|split; [vm_compute; discriminate|reflexivity]]|]. vm_compute. auto 6. Qed.
Example C113_decoder_holds_of :
  let d := mkDec FiveBits 4096 (mkDyn [([97], [98]); ([99], [100])] 68 200) in
  hdecode Debug d ([63; 49; 63; 9; 63; 69] ++ [190]) [] = hdecode Debug d ([63; 9; 63; 69] ++ [190]) [] /\
  snd (hdecode Debug d ([63; 49; 63; 9; 63; 69] ++ [190]) []) = Ok 1.
Proof. vm_compute. auto. Qed.
