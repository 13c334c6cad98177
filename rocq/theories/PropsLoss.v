(* Property theorems C116: header blocks that are lost, repeated or reordered.  The
   vocabulary is at the head of HpackLoss.v (quiet, self_contained, send_blocks, receive,
   all_right), in HpackTrust.v (written), HpackConn.v (headers) and HpackApi.v (op_ok). *)
From Coq Require Import String Ascii.
From Verif Require Import Base HuffModel HuffSpec HpackStatic HpackModel HpackSpec HpackApi HpackTab HpackEnc HpackDerived
  HpackConn HpackSecret HpackTrust HpackLoss.
Open Scope list_scope.
Open Scope N_scope.

(* C116, quiet blocks: if none of the blocks stores anything, any of them may be lost,
   repeated or overtaken by others: each vector that arrives gives its own headers, and the
   decoder stays as it was. *)
Theorem C116_quiet : forall m m' blocks d t arrivals ps t', wf t -> dtable d = t -> dlimit d < 2 ^ 32 ->
  Forall (Forall (op_ok (dlimit d))) blocks -> Forall (Forall quiet) blocks ->
  send_blocks m t blocks = (t', ps) -> Forall (fun p => In p ps) arrivals ->
  t' = t /\ all_right m' d d arrivals.
Proof. exact any_order. Qed.
Print Assumptions C116_quiet.

(* C116, self-contained blocks: the octets do not depend on the encoder's table, and every
   decoder reads them, whatever its table, and stays as it was. *)
Theorem C116_self_contained : forall m m' ops limit t,
  wf t -> limit < 2 ^ 32 -> Forall (op_ok limit) ops -> forallb self_contained ops = true ->
  fst (fst (run_ops m t [] ops)) = t /\
  forall t2, wf t2 -> written m t2 ops = written m t ops /\ headers (abs t2) ops = headers (abs t) ops /\
  forall d, wf (dtable d) -> dlimit d = limit ->
  exists n, hdecode m' d (written m t ops) [] = ((d, [], headers (abs t) ops), Ok n).
Proof. exact self_contained_block. Qed.
Print Assumptions C116_self_contained.

(* C116, mixed traffic: if the vectors that are not self-contained arrive once each and in
   order, the self-contained ones may be lost, repeated and moved anywhere among them. *)
Theorem C116_mixed : forall m m' blocks d t arrivals ps t', wf t -> dtable d = t -> dlimit d < 2 ^ 32 ->
  Forall (Forall (op_ok (dlimit d))) blocks -> send_blocks m t blocks = (t', ps) ->
  Forall (fun p => In p ps) arrivals ->
  filter (fun p => negb (free p)) arrivals = filter (fun p => negb (free p)) ps ->
  all_right m' d (set_table d t') arrivals.
Proof. exact in_between. Qed.
Print Assumptions C116_mixed.

(* C116, storing blocks cannot be missed: if a field that is stored is lost on the way to a
   decoder with a different newest entry, the next reference to the entry is read as a
   reference to that other one, with result Ok. *)
Theorem C116_store_lost : forall m m' d t f e first rest, wf t -> dtable d = t -> input_ok f ->
  field_of (inner t) f = Some e -> flag_used (inner t) f = 4 -> line_size e <= dmax t ->
  inner t = first :: rest -> first <> e ->
  let t1 := fst (fst (hencode m t f [])) in
  headers (abs t1) [Send (Indexed 62)] = [(fst e, snd e, 0)] /\
  hdecode m' d (written m t1 [Send (Indexed 62)]) [] = ((d, [], [(fst first, snd first, 0)]), Ok 1) /\
  (fst first, snd first) <> (fst e, snd e).
Proof. exact store_lost. Qed.
Print Assumptions C116_store_lost.

(* Quiet blocks that do refer to the table [a: x, b: y]: the third and the first arrive, the
   third again; the second is lost. *)
Definition loss_table : table := mkDyn [(octets "a", octets "x"); (octets "b", octets "y")] 68 100.
Definition loss_dec : decoder := set_table (decoder_with_dynamic_size 4096) loss_table.
Definition quiet_blocks : list (list op) :=
  [[Send (Indexed 62); Send (Indexed 2)];
   [Send (Literal (octets "a") (octets "x") 16)];
   [Send (IndexedName 63 (octets "w") 8); Send (Literal (octets "b") (octets "y") 19)]].

Ltac ops_ok :=
  repeat (apply Forall_cons; [|]); try apply Forall_nil;
  try (cbn [op_ok input_ok sendable quiet unindexed]; repeat split; try apply octets_bytes; vm_compute; (reflexivity || discriminate || exact Logic.I)).

Example C116_quiet_case : forall m m',
  wf loss_table /\ Forall (Forall (op_ok 4096)) quiet_blocks /\ Forall (Forall quiet) quiet_blocks /\
  exists p1 p2 p3,
    send_blocks m loss_table quiet_blocks = (loss_table, [p1; p2; p3]) /\
    octets_of p1 = [190; 130] /\ octets_of p2 = [190] /\ octets_of p3 = [31; 48; 1; 119; 191] /\
    receive m' loss_dec [octets_of p3; octets_of p1; octets_of p3] =
      (loss_dec, [Some [(octets "b", octets "w", 8); (octets "b", octets "y", 0)];
                  Some [(octets "a", octets "x", 0); (octets ":method", octets "GET", 0)];
                  Some [(octets "b", octets "w", 8); (octets "b", octets "y", 0)]]).
Proof.
  intros m m'. refine (conj _ (conj _ (conj _ _))).
  - unfold wf. repeat split; vm_compute; (reflexivity || discriminate).
  - unfold quiet_blocks. ops_ok.
  - unfold quiet_blocks. ops_ok.
  - destruct m, m'; (eexists _, _, _; split; [vm_compute; reflexivity|repeat split; vm_compute; reflexivity]).
Qed.

(* Mixed: two storing blocks, a reference to the first stored entry, and two self-contained
   blocks, of which one arrives twice and early and the other not at all.  And the same
   storing blocks with the second one lost. *)
Definition mixed_blocks : list (list op) :=
  [[Send (Literal (octets "c") (octets "z") 4)];
   [Send (Indexed 2); Send (IndexedName 1 (octets "h") 2)];
   [Send (Literal (octets "d") (octets "v") 4)];
   [Send (Literal (octets "e") (octets "u") 9)];
   [Send (Indexed 63)]].

Example C116_mixed_case : forall m m',
  Forall (Forall (op_ok 4096)) mixed_blocks /\
  exists t' p1 p2 p3 p4 p5,
    send_blocks m loss_table mixed_blocks = (t', [p1; p2; p3; p4; p5]) /\
    map free [p1; p2; p3; p4; p5] = [false; true; false; true; false] /\
    receive m' loss_dec (map octets_of [p4; p1; p4; p3; p5]) =
      (set_table loss_dec t',
       [Some [(octets "e", octets "u", 8)]; Some [(octets "c", octets "z", 4)]; Some [(octets "e", octets "u", 8)];
        Some [(octets "d", octets "v", 4)]; Some [(octets "c", octets "z", 0)]]) /\
    snd (receive m' loss_dec (map octets_of [p1; p5])) =
      [Some [(octets "c", octets "z", 4)]; Some [(octets "a", octets "x", 0)]].
Proof.
  intros m m'. split.
  - unfold mixed_blocks. ops_ok.
  - destruct m, m'; (eexists _, _, _, _, _, _; split; [vm_compute; reflexivity|repeat split; vm_compute; reflexivity]).
Qed.

Example C116_store_lost_case :
  let f := Literal (octets "c") (octets "z") 4 in
  let e := (octets "c", octets "z") in
  input_ok f /\ field_of (inner loss_table) f = Some e /\ flag_used (inner loss_table) f = 4 /\
  line_size e <= dmax loss_table /\ (octets "a", octets "x") <> e.
Proof.
  cbv zeta. refine (conj _ (conj _ (conj _ (conj _ _)))); try (vm_compute; (reflexivity || discriminate)).
  cbn [input_ok]. repeat split; try apply octets_bytes.
Qed.
