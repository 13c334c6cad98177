(* C114: exactly which states encoders and decoders get into. *)
From Verif Require Import Base HuffTables HuffModel HuffSpec Leb HpackStatic HpackModel
  HpackSpec HpackApi HpackInt HpackStr HpackTab HpackDec HpackEnc HpackDerived HpackMore HpackEncAlike HpackReach.
Open Scope list_scope.
Open Scope N_scope.

(* [wf]: the recorded size is the size of the entries, at most the maximum, which is an u32.
   Every such table whose names and values are octet strings is that of an encoder after some
   calls, and there are no other. *)
Theorem C114_encoder : forall m n t, n < 2 ^ 32 ->
  (enc_reaches m (encoder_with_dynamic_size n) t <-> wf t /\ Forall octet_line (inner t)).
Proof. intros m n t Hn. apply enc_reaches_iff; [now apply wf_new|constructor]. Qed.
Print Assumptions C114_encoder.
(* From any of these states the encoder can be brought into any other. *)
Theorem C114_encoder_again : forall m t0 t, wf t0 -> Forall octet_line (inner t0) ->
  (enc_reaches m t0 t <-> wf t /\ Forall octet_line (inner t)).
Proof. exact enc_reaches_iff. Qed.
Print Assumptions C114_encoder_again.

(* A decoder created with the table size n gets into exactly the states of dec_possible: any
   limit, a table of maximum n or at most 2^28 + 30, and in it any entries of at most that size
   whose strings fit into 2^28 + 126 octets plain or Huffman coded. *)
Theorem C114_decoder : forall m n d, n < 2 ^ 32 -> (dec_reaches m (decoder_with_dynamic_size n) d <-> dec_possible n d).
Proof. exact dec_reaches_iff. Qed.
Print Assumptions C114_decoder.
(* From any of its states a decoder can be brought into any with a maximum of at most 2^28 + 30. *)
Theorem C114_decoder_again : forall m n d0 d, n < 2 ^ 32 -> dec_possible n d0 -> dmax (dtable d) <= MAX_UPDATE ->
  (dec_reaches m d0 d <-> dec_possible n d).
Proof.
  intros m n d0 d Hn P0 HM. split; [now apply dec_reaches_possible|]. intros P. apply (dec_reaches_any m n); auto; apply P0.
Qed.
Print Assumptions C114_decoder_again.
(* A larger maximum, once left, is never had again. *)
Theorem C114_decoder_no_way_back : forall m n d0 d, n < 2 ^ 32 -> dec_possible n d0 -> dmax (dtable d0) <= MAX_UPDATE -> dec_reaches m d0 d ->
  dmax (dtable d) <= MAX_UPDATE.
Proof.
  intros m n d0 d Hn P0 HM R. assert (P : dec_possible (dmax (dtable d0)) d0).
  { destruct P0 as (P1 & P2 & P3 & P4 & _). refine (conj P1 (conj P2 (conj P3 (conj P4 (or_introl eq_refl))))). }
  destruct (dec_reaches_possible m _ d0 d P R) as (_ & _ & _ & _ & [E|E]); [now rewrite E|exact E].
Qed.
Print Assumptions C114_decoder_no_way_back.

(* So there are tables of encoders that no decoder can have. *)
Theorem C114_encoder_only : forall m n n0, n < 2 ^ 32 -> n0 < 2 ^ 32 ->
  exists t, enc_reaches m (encoder_with_dynamic_size n0) t /\
    forall d, dtable d = t -> ~ dec_reaches m (decoder_with_dynamic_size n) d.
Proof. exact enc_only. Qed.
Print Assumptions C114_encoder_only.

(* Two entries in a table of 100 octets, limit 7, from a decoder created with 4096; and the
   calls that lead there. *)
Example C114_case :
  dec_possible 4096 (mkDec FiveBits 7 (mkDyn [([97], [98]); ([99], [])] 67 100)) /\
  dec_possible 4096 (decoder_with_dynamic_size 4096) /\
  fold_left (do_call Debug) [CallDecode [63; 69; 64; 1; 99; 0; 64; 1; 97; 1; 98] []; CallLimit 7] (decoder_with_dynamic_size 4096) =
    mkDec FiveBits 7 (mkDyn [([97], [98]); ([99], [])] 67 100).
Proof.
  refine (conj _ (conj _ _)); [| |reflexivity].
  - refine (conj eq_refl (conj eq_refl (conj (conj eq_refl (conj _ eq_refl)) (conj _ _)))); [intros H; discriminate H| |right; intros H; discriminate H].
    constructor; [|constructor; [|constructor]]; (split; (split; [repeat constructor|exists false; intros H; discriminate H])).
  - refine (conj eq_refl (conj eq_refl (conj (wf_new 4096 eq_refl) (conj (Forall_nil _) (or_introl eq_refl))))).
Qed.
Example C114_encoder_case :
  fst (fst (run_ops Release (encoder_with_dynamic_size 0) [] [Resize 100; Send (Literal [99] [] 4); Send (Literal [97] [98] 4)])) =
    mkDyn [([97], [98]); ([99], [])] 67 100 /\
  ~ wf (mkDyn [([97], [98]); ([99], [])] 67 66).
Proof. split; [reflexivity|]. intros (_ & H & _). apply H. reflexivity. Qed.
