(* Property theorems C89 about the protobuf crate: calling encode again after
   EncoderError::Interrupted.  Vocabulary: ProtosSpec.v, ProtosApi.v, the specification
   part of ProtosIo.v and the head of ProtosRetry.v ([attempts], [decodes_to]). *)
From Verif Require Import Base Leb ProtosModel ProtosSpec ProtosApi ProtosNum ProtosDec ProtosConv ProtosIo ProtosIoProofs ProtosRetry.
Open Scope list_scope. Open Scope N_scope.

(* ------------------------------------------------------------------ *)
(* C89: retrying after Interrupted. *)
Theorem C89_attempts_partial : forall (W : Type) (write : W -> list N -> W * io_answer) fuel tag l t p bs w gots w' o, honest write ->
  1 <= tag < 2 ^ 29 -> lit_ok l -> lit_wire l t p -> N.of_nat (length p) < 2 ^ 64 -> field_wire (tag, t, p) bs ->
  attempts write fuel tag l w gots w' o ->
  exists failed own, gots = failed ++ [own] /\ Forall (fun g => strictly_before g bs) failed /\
    (forall n, o = Ok n -> own = bs /\ n = N.of_nat (length bs)) /\
    (forall e, o = Err e -> e = PInterrupted /\ strictly_before own bs) /\ o <> Panic.
Proof. intros W write. exact (last_attempt write). Qed.
Print Assumptions C89_attempts_partial.

Theorem C89_once_partial : forall m (W : Type) (write : W -> list N -> W * io_answer) fuel tag l t p bs w w1 got w2 got2 n, honest write ->
  1 <= tag < 2 ^ 29 -> lit_ok l -> lit_wire l t p -> N.of_nat (length p) < 2 ^ 64 -> field_wire (tag, t, p) bs ->
  encode_to write fuel tag l w = ((w1, got), Err PInterrupted) ->
  encode_to write fuel tag l w1 = ((w2, got2), Ok n) ->
  (decodes_to m (got ++ got2) [(tag, t, p)] <-> got = []).
Proof. intros m W write. exact (retried_once write m). Qed.
Print Assumptions C89_once_partial.

(* A writer that takes everything, but refuses the third call. *)
Definition hiccup (w : N) (data : list N) : N * io_answer :=
  (w + 1, if w =? 2 then Refused else Accepted (N.of_nat (length data))).

(* The field written by an interrupted and a successful call is read as another field
   and an incomplete one. *)
Theorem C89_retry_refuted : exists (W : Type) (write : W -> list N -> W * io_answer) fuel tag l t p w w1 got w2 got2 n,
  honest write /\ 1 <= tag < 2 ^ 29 /\ lit_ok l /\ lit_wire l t p /\ nonempty_lit l /\
  encode_to write fuel tag l w = ((w1, got), Err PInterrupted) /\
  encode_to write fuel tag l w1 = ((w2, got2), Ok n) /\
  forall m, ~ decodes_to m (got ++ got2) [(tag, t, p)] /\
    exists q d, q <> p /\ decode_fully m pdecoder_default (got ++ got2) [] = (d, Ok tt) /\ snd d = [(tag, t, q)].
Proof.
  exists N, hiccup, 10%nat, 1, (EBytes [65; 66]), LengthDelimited, [65; 66], 0, 3, [10; 2], 6, [10; 2; 65; 66], 4.
  split. { intros w data w' n Hd E. unfold hiccup in E. destruct (w =? 2); [discriminate|]. injection E as _ <-. lia. }
  split; [split; [lia|reflexivity]|]. split; [repeat constructor|]. split; [split; reflexivity|]. split; [discriminate|].
  split; [reflexivity|]. split; [reflexivity|]. intros m. split.
  - unfold decodes_to. destruct m; vm_compute; discriminate.
  - exists [10; 2]. destruct m; eexists; (split; [discriminate|]); split; reflexivity.
Qed.
Print Assumptions C89_retry_refuted.

Example C89_case : honest hiccup /\
  attempts hiccup 10 1 (EBytes [65; 66]) 0 [[10; 2]; [10; 2; 65; 66]] 6 (Ok 4) /\
  field_wire (1, LengthDelimited, [65; 66]) [10; 2; 65; 66].
Proof.
  split. { intros w data w' n Hd E. unfold hiccup in E. destruct (w =? 2); [discriminate|]. injection E as _ <-. lia. }
  split.
  - eapply call_again; [reflexivity|]. apply last_call. reflexivity.
  - exists 2, [10]. split; [reflexivity|]. split; [apply shortest_small; reflexivity|]. exists [2].
    split; [apply shortest_small; reflexivity|reflexivity].
Qed.
