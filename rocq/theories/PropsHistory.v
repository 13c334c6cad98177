(* Property theorem C87, second part: with table size changes.  The vocabulary (ever,
   maximum, always_fitted, session_events, block_events) is at the head of HpackHistory.v. *)
From Verif Require Import Base HuffTables HuffModel HuffSpec Leb HpackStatic HpackModel
  HpackSpec HpackApi HpackInt HpackStr HpackTab HpackDec HpackEnc HpackDerived HpackMore HpackLength HpackRetain HpackHistory.
Open Scope list_scope.
Open Scope N_scope.

(* C87: after any calls of encode and update_max_dynamic_size, index 62 + k is the k-th newest
   of all fields ever stored exactly if, at every moment since that field was stored, it and
   the then newer ones fitted the maximum of that moment; otherwise it is invalid.  (A field
   evicted by a smaller maximum does not come back with a larger one.) *)
Theorem C87_encoder_resized : forall m ops t dst t' dst' rs, wf t -> Forall op_typed ops ->
  run_ops m t dst ops = (t', dst', rs) -> no_overflow rs ->
  let evs := session_events (abs t) ops in
  dmax t' = maximum (dmax t) evs /\
  forall k e, table_get t' (62 + N.of_nat k) = Some e <->
    nth_error (ever (inner t) evs) k = Some e /\ always_fitted (inner t) (dmax t) evs k.
Proof. exact encoder_history. Qed.
Print Assumptions C87_encoder_resized.

(* The same for a decoder and whatever it read, even if it stopped at an error. *)
Theorem C87_decoder_resized : forall m d buf dst d1 rest dst1 o, wf (dtable d) -> bytes buf ->
  hdecode m d buf dst = ((d1, rest, dst1), o) ->
  exists prs, buf = wire_octets prs ++ rest /\ wires 5 code_padding prs /\
    let evs := block_events (dlimit d) (abs (dtable d)) (reprs prs) in
    dmax (dtable d1) = maximum (dmax (dtable d)) evs /\
    forall k e, table_get (dtable d1) (62 + N.of_nat k) = Some e <->
      nth_error (ever (inner (dtable d)) evs) k = Some e /\ always_fitted (inner (dtable d)) (dmax (dtable d)) evs k.
Proof. exact decoder_history. Qed.
Print Assumptions C87_decoder_resized.

(* Three fields of 34 octets; a maximum of 70 evicts the first, which stays away when the
   maximum grows again; then a field of 36 octets that takes its name from the oldest entry
   is stored under a maximum of 70, evicting that entry (RFC 7541 section 4.4). *)
Example C87_resized_case : forall m,
  let t0 := table_with_size 4096 in
  let send n v := Send (Literal [n] [v] 4) in
  let ops1 := [send 97 98; send 99 100; send 101 102; Resize 70; Resize 4096] in
  let ops2 := [Resize 70; Send (IndexedName 63 [1; 2; 3] 4)] in
  let t1 := fst (fst (run_ops m t0 [] ops1)) in
  wf t0 /\ Forall op_typed (ops1 ++ ops2) /\ snd (run_ops m t0 [] (ops1 ++ ops2)) = repeat (Ok tt) 7 /\
  session_events (abs t0) ops1 =
    [Stored ([97], [98]); Stored ([99], [100]); Stored ([101], [102]); Maximum 70; Maximum 4096] /\
  map (fun k => table_get t1 (62 + k)) [0; 1; 2] = [Some ([101], [102]); Some ([99], [100]); None] /\
  always_fitted [] 4096 (session_events (abs t0) ops1) 1 /\ ~ always_fitted [] 4096 (session_events (abs t0) ops1) 2 /\
  inner (fst (fst (run_ops m t0 [] (ops1 ++ ops2)))) = [([99], [1; 2; 3]); ([101], [102])] /\
  (exists d, hdecode m decoder_default (snd (fst (run_ops m t0 [] (ops1 ++ ops2)))) [] =
     ((d, [], [([97], [98], 4); ([99], [100], 4); ([101], [102], 4); ([99], [1; 2; 3], 4)]), Ok 21)).
Proof.
  intros m. cbv zeta.
  assert (E : session_events (abs (table_with_size 4096)) [Send (Literal [97] [98] 4); Send (Literal [99] [100] 4);
      Send (Literal [101] [102] 4); Resize 70; Resize 4096] =
    [Stored ([97], [98]); Stored ([99], [100]); Stored ([101], [102]); Maximum 70; Maximum 4096]) by (vm_compute; reflexivity).
  refine (conj _ (conj _ (conj _ (conj E (conj _ (conj _ (conj _ (conj _ _)))))))).
  - repeat split; discriminate.
  - cbn [app]. repeat (apply Forall_cons; [cbn; repeat split; repeat constructor|]). apply Forall_nil.
  - destruct m; vm_compute; reflexivity.
  - destruct m; vm_compute; reflexivity.
  - rewrite E. apply (evolve_nth (mkdyn [] 4096) [Stored ([97], [98]); Stored ([99], [100]); Stored ([101], [102]); Maximum 70; Maximum 4096])
      with (e := ([99], [100])); [vm_compute; discriminate|vm_compute; reflexivity].
  - rewrite E. intros H. specialize (H [Stored ([97], [98]); Stored ([99], [100]); Stored ([101], [102]); Maximum 70] [Maximum 4096] eq_refl).
    revert H. vm_compute. intros H. apply H; [repeat constructor|reflexivity].
  - destruct m; vm_compute; reflexivity.
  - destruct m; vm_compute; eexists; reflexivity.
Qed.
