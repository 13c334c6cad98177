(* Property theorem C80: connections whose octets arrive in arbitrary portions.  The
   vocabulary is at the heads of HpackConn.v (events, sent, headers, table_after) and
   HpackOctets.v (stream). *)
From Coq Require Import String Ascii.
From Verif Require Import Base HuffModel HuffSpec HpackStatic HpackModel HpackSpec HpackApi HpackTab HpackEnc HpackDerived HpackConn HpackOctets.
Open Scope list_scope.
Open Scope N_scope.

(* C80: as C76, with deliveries of any number of octets, also ending inside a
   representation, and a caller that goes on after errors and caught panics.  Nothing
   is lost, repeated or altered, whatever the portions and whenever decode or
   decode_exact is called; other answers than those listed do not occur. *)
Theorem C80_octets : forall m m' t0 d0 evs, wf t0 -> dtable d0 = t0 -> Forall op_typed (sent evs) ->
  no_overflow (snd (run_ops m t0 [] (sent evs))) ->
  let '(c, vs) := stream_run m m' (stream_start t0 d0) evs in
  exists done todo,
    sent evs = done ++ todo /\
    s_got c = headers (abs t0) done /\
    wf (dtable (s_dec c)) /\ abs (dtable (s_dec c)) = table_after (abs t0) done /\
    wf (s_enc c) /\ abs (s_enc c) = table_after (abs t0) (sent evs) /\
    s_rx c ++ s_wire c = snd (fst (run_ops m (dtable (s_dec c)) [] todo)) /\
    Forall (fun v => ((exists n, v = Ok n) \/ v = Err DIntegerOverflow \/ v = Err DInvalidMaxDynamicSize) \/
                     v = Err DIntegerUnderflow \/ v = Panic) vs /\
    (Forall (op_ok (dlimit (s_dec c))) todo ->
     exists n, stream_run m m' c [EvDeliver (List.length (s_wire c)); EvDecode] =
       (mkStream (s_enc c) [] [] (set_table (s_dec c) (s_enc c)) (headers (abs t0) (sent evs)), [Ok n])).
Proof. exact octet_stream. Qed.
Print Assumptions C80_octets.

(* Why a call of decode or decode_exact does not succeed: the next call of the encoder
   cannot be read with the present limit (an error), or what is left in the buffer is
   not the octets of a number of whole encoder calls (IntegerUnderflow or a panic). *)
Theorem C80_verdicts : forall m m' t0 d0 evs, wf t0 -> dtable d0 = t0 -> Forall op_typed (sent evs) ->
  no_overflow (snd (run_ops m t0 [] (sent evs))) ->
  let '(c, _) := stream_run m m' (stream_start t0 d0) evs in
  forall d1 rest got v,
  (hdecode m' (s_dec c) (s_rx c) (s_got c) = ((d1, rest, got), v) \/
   exists cap, hdecode_exact m' cap (s_dec c) (s_rx c) (s_got c) = ((d1, rest, got), v)) ->
  exists done todo,
    sent evs = done ++ todo /\ got = headers (abs t0) done /\ abs (dtable d1) = table_after (abs t0) done /\
    rest ++ s_wire c = snd (fst (run_ops m (dtable d1) [] todo)) /\
    ((exists n, v = Ok n) \/
     (exists o todo', todo = o :: todo' /\ ~ readable (dlimit (s_dec c)) (entries (table_after (abs t0) done)) o /\
        (v = Err DIntegerOverflow \/ v = Err DInvalidMaxDynamicSize /\ exists n, o = Resize n /\ dlimit (s_dec c) < n)) \/
     (v = Err DIntegerUnderflow \/ v = Panic) /\
       forall q w, todo = q ++ w -> rest <> snd (fst (run_ops m (dtable d1) [] q))).
Proof. exact octet_stream_verdict. Qed.
Print Assumptions C80_verdicts.

(* Octets arriving in twos and threes: a panic (the buffer ends in front of the name), an
   IntegerUnderflow (inside the value), and in the end everything. *)
Definition drip_events : list event :=
  [EvSend (Send (Literal (octets "a") (octets "bcd") 4)); EvSend (Send (Indexed 62));
   EvDeliver 1; EvDecode; EvDeliver 4; EvDecode; EvSend (Resize 80); EvDeliver 3; EvExact 9; EvDeliver 1; EvDecode;
   EvDeliver 9; EvDecode].

Example C80_case : forall m m',
  wf (table_with_size 4096) /\ Forall op_typed (sent drip_events) /\
  no_overflow (snd (run_ops m (table_with_size 4096) [] (sent drip_events))) /\
  stream_run m m' (stream_start (encoder_with_dynamic_size 4096) (decoder_with_dynamic_size 4096)) drip_events =
   (mkStream (mkDyn [([97], [98; 99; 100])] 36 80) [] [] (mkDec FiveBits 4096 (mkDyn [([97], [98; 99; 100])] 36 80))
      [([97], [98; 99; 100], 4); ([97], [98; 99; 100], 0)],
    [Panic; Err DIntegerUnderflow; Ok 8; Panic; Ok 0]).
Proof.
  intros m m'. split; [repeat split; vm_compute; (reflexivity || discriminate)|]. split.
  { assert (B : forall s, bytes (octets s)) by exact octets_bytes.
    unfold drip_events. cbn [sent].
    repeat (apply Forall_cons; [|]); try apply Forall_nil; cbn [op_typed input_ok]; repeat split; try apply B;
    try (vm_compute; reflexivity). }
  split; [|destruct m, m'; vm_compute; reflexivity].
  destruct m; intros H; vm_compute in H; repeat (destruct H as [H|H]; [discriminate H|]); exact H.
Qed.
