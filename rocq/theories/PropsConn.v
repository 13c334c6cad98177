(* Property theorem C76: whole connections.  The vocabulary (events, conn, sent) is
   at the head of HpackConn.v; the meaning of encoder calls is [meaning] of HpackApi.v:
   [headers d ops] are the headers the calls ops transmit when the table is d,
   [table_after d ops] the table they leave. *)
From Coq Require Import String Ascii.
From Verif Require Import Base HuffModel HuffSpec HpackStatic HpackModel HpackSpec HpackApi HpackTab HpackEnc HpackDerived HpackConn.
Open Scope list_scope.
Open Scope N_scope.

(* C76: an encoder and a decoder with equal tables, used in any order: calls to the
   encoder, whole vectors delivered singly or together, decode, decode_exact with any
   capacity, changes of the decoder's limit, and further calls after errors.  At every
   moment the decoder has the table the encoder had after some of its calls (done), it
   has delivered exactly the headers of these calls, and what is underway is exactly
   what the encoder wrote for the others (todo).  No call panics.  When the calls
   underway are within what the decoder reads with its present limit, delivering and
   decoding all of it makes the tables equal and completes the headers. *)
Theorem C76_connection : forall m m' t0 d0 evs, wf t0 -> dtable d0 = t0 -> Forall op_typed (sent evs) ->
  no_overflow (snd (run_ops m t0 [] (sent evs))) ->
  let '(c, vs) := conn_run m m' (conn_start t0 d0) evs in
  exists done todo,
    sent evs = done ++ todo /\
    c_got c = headers (abs t0) done /\
    wf (dtable (c_dec c)) /\ abs (dtable (c_dec c)) = table_after (abs t0) done /\
    wf (c_enc c) /\ abs (c_enc c) = table_after (abs t0) (sent evs) /\
    c_rx c ++ concat (c_wire c) = snd (fst (run_ops m (dtable (c_dec c)) [] todo)) /\
    Forall (fun v => (exists n, v = Ok n) \/ v = Err DIntegerOverflow \/ v = Err DInvalidMaxDynamicSize) vs /\
    (Forall (op_ok (dlimit (c_dec c))) todo ->
     exists n, conn_run m m' c [EvDeliver (List.length (c_wire c)); EvDecode] =
       (mkConn (c_enc c) [] [] (set_table (c_dec c) (c_enc c)) (headers (abs t0) (sent evs)), [Ok n])).
Proof. exact connection. Qed.
Print Assumptions C76_connection.

(* A decoder call fails only in front of an encoder call whose octets it cannot read
   with its present limit; it has then delivered all the calls before. *)
Theorem C76_errors : forall m m' t0 d0 evs, wf t0 -> dtable d0 = t0 -> Forall op_typed (sent evs) ->
  no_overflow (snd (run_ops m t0 [] (sent evs))) ->
  let '(c, _) := conn_run m m' (conn_start t0 d0) evs in
  forall d1 rest got e,
  (hdecode m' (c_dec c) (c_rx c) (c_got c) = ((d1, rest, got), Err e) \/
   exists cap, hdecode_exact m' cap (c_dec c) (c_rx c) (c_got c) = ((d1, rest, got), Err e)) ->
  exists done o todo,
    sent evs = done ++ o :: todo /\ got = headers (abs t0) done /\
    abs (dtable d1) = table_after (abs t0) done /\
    ~ readable (dlimit (c_dec c)) (entries (table_after (abs t0) done)) o /\
    (e = DIntegerOverflow \/ e = DInvalidMaxDynamicSize /\ exists n, o = Resize n /\ dlimit (c_dec c) < n).
Proof. exact connection_error. Qed.
Print Assumptions C76_errors.

(* So if limits never go below L, and updates stay within L and 2^28 + 30 and strings
   within 2^28 + 126 octets, no decoder call fails, whatever the order. *)
Theorem C76_no_errors : forall m m' t0 d0 L evs, wf t0 -> dtable d0 = t0 -> Forall op_typed (sent evs) ->
  no_overflow (snd (run_ops m t0 [] (sent evs))) ->
  L <= dlimit d0 ->
  Forall (fun ev => match ev with EvLimit n => L <= n | _ => True end) evs -> Forall (op_ok L) (sent evs) ->
  Forall (fun v => exists n, v = Ok n) (snd (conn_run m m' (conn_start t0 d0) evs)).
Proof. exact connection_smooth. Qed.
Print Assumptions C76_no_errors.

(* Pipelined calls, a decoder that looks at one representation at a time, a limit
   lowered while a larger update is underway (error), and raised again. *)
Definition demo_events : list event :=
  [EvSend (Send (Literal (octets "a") (octets "b") 4)); EvSend (Send (Indexed 62)); EvSend (Send (Indexed 77));
   EvDeliver 1; EvSend (Resize 80); EvDecode; EvSend (Send (Indexed 62)); EvDeliver 9; EvLimit 79; EvExact 1;
   EvExact 5; EvLimit 100; EvExact 1; EvSend (Send (Indexed 2))].

Example C76_case : forall m m',
  wf (table_with_size 4096) /\ Forall op_typed (sent demo_events) /\
  no_overflow (snd (run_ops m (table_with_size 4096) [] (sent demo_events))) /\
  conn_run m m' (conn_start (encoder_with_dynamic_size 4096) (decoder_with_dynamic_size 4096)) demo_events =
   (mkConn (mkDyn [([97], [98])] 34 80) [[130]] [190] (mkDec FiveBits 100 (mkDyn [([97], [98])] 34 80))
      [([97], [98], 4); ([97], [98], 0)],
    [Ok 5; Ok 1; Err DInvalidMaxDynamicSize; Ok 0]).
Proof.
  intros m m'. split; [repeat split; vm_compute; (reflexivity || discriminate)|]. split.
  { assert (B : forall s, bytes (octets s)) by exact octets_bytes.
    unfold demo_events. cbn [sent].
    repeat (apply Forall_cons; [|]); try apply Forall_nil; cbn [op_typed input_ok]; repeat split; try apply B;
    try (vm_compute; reflexivity). }
  split; [|destruct m, m'; vm_compute; reflexivity].
  destruct m; intros H; vm_compute in H; repeat (destruct H as [H|H]; [discriminate H|]); exact H.
Qed.
