(* C102: decoding in batches. *)
From Coq Require Import String Ascii.
From Verif Require Import Base HuffTables HuffModel HuffSpec HuffDerived Leb HpackStatic HpackModel
  HpackSpec HpackApi HpackInt HpackStr HpackTab HpackDec HpackEnc HpackDerived HpackMore HpackConn.
Open Scope list_scope.
Open Scope N_scope.

(* ------------------------------------------------------------------ *)
(* Specification: one call of decode_exact after the other, with the given capacities, until
   they are used up or a call fails; the counts add up (add_count, HpackApi.v). *)
Fixpoint batches (m : mode) (d : decoder) (buf : list N) (dst : list out_header) (caps : list nat)
  : (decoder * list N * list out_header) * outcome dec_error N :=
  match caps with
  | [] => ((d, buf, dst), Ok 0)
  | c :: caps' =>
      match hdecode_exact m c d buf dst with
      | ((d1, buf1, dst1), Ok n) => let (st, o) := batches m d1 buf1 dst1 caps' in (st, add_count n o)
      | failed => failed
      end
  end.
Definition room (caps : list nat) : nat := fold_right Nat.add 0%nat caps.

(* ------------------------------------------------------------------ *)
Lemma loop_total m cap : forall d buf dst k,
  decode_exact_loop m cap d buf dst k = (fst (decode_exact_loop m cap d buf dst 0), add_count k (snd (decode_exact_loop m cap d buf dst 0))).
Proof.
  induction cap as [|cap IH]; intros d buf dst k; destruct buf as [|b buf]; cbn [decode_exact_loop fst snd add_count];
    try (rewrite N.add_0_r; reflexivity).
  destruct (decode_one m d (b :: buf) dst) as [[[d1 buf1] dst1] [n|e| |]]; cbn [binds]; try reflexivity.
  rewrite (IH d1 buf1 dst1 (k + n)), (IH d1 buf1 dst1 (0 + n)). cbn [fst snd].
  destruct (snd (decode_exact_loop m cap d1 buf1 dst1 0)); cbn [add_count]; try reflexivity. do 2 f_equal. lia.
Qed.

Lemma loop_add m b : forall a d buf dst,
  decode_exact_loop m (a + b) d buf dst 0 =
  match decode_exact_loop m a d buf dst 0 with
  | ((d1, buf1, dst1), Ok n) => (fst (decode_exact_loop m b d1 buf1 dst1 0), add_count n (snd (decode_exact_loop m b d1 buf1 dst1 0)))
  | failed => failed
  end.
Proof.
  induction a as [|a IH]; intros d buf dst.
  - cbn [Nat.add]. destruct buf as [|x buf]; cbn [decode_exact_loop].
    + destruct b; cbn; reflexivity.
    + rewrite (surjective_pairing (decode_exact_loop m b d (x :: buf) dst 0)) at 1. f_equal.
      destruct (snd (decode_exact_loop m b d (x :: buf) dst 0)); reflexivity.
  - cbn [Nat.add]. destruct buf as [|x buf].
    + cbn [decode_exact_loop]. destruct b; cbn; reflexivity.
    + cbn [decode_exact_loop]. destruct (decode_one m d (x :: buf) dst) as [[[d1 buf1] dst1] [n|e| |]]; cbn [binds]; try reflexivity.
      rewrite (loop_total m (a + b) d1 buf1 dst1 (0 + n)), IH, (loop_total m a d1 buf1 dst1 (0 + n)).
      destruct (decode_exact_loop m a d1 buf1 dst1 0) as [[[d2 buf2] dst2] [k|e| |]]; cbn [fst snd add_count]; try reflexivity.
      destruct (snd (decode_exact_loop m b d2 buf2 dst2 0)); cbn [add_count]; try reflexivity. rewrite !N.add_0_l, ?N.add_assoc; reflexivity.
Qed.

(* C102: any batches are together one call with the sum of the capacities: same headers, rest
   of the buffer, table, verdict and count; for every input, good or bad, and every decoder. *)
Theorem C102_batches : forall m caps d buf dst, batches m d buf dst caps = hdecode_exact m (room caps) d buf dst.
Proof.
  intros m. induction caps as [|c caps IH]; intros d buf dst; cbn [batches room fold_right].
  - unfold hdecode_exact. destruct buf; reflexivity.
  - fold (room caps). unfold hdecode_exact at 2. rewrite loop_add. unfold hdecode_exact at 1.
    destruct (decode_exact_loop m c d buf dst 0) as [[[d1 buf1] dst1] [n|e| |]]; try reflexivity.
    rewrite IH. unfold hdecode_exact. destruct (decode_exact_loop m (room caps) d1 buf1 dst1 0); reflexivity.
Qed.
Print Assumptions C102_batches.

(* If the capacities are together at least the octets of the block, they do what one call of
   decode does. *)
Theorem C102_decode : forall m caps d buf dst, wf (dtable d) -> bytes buf -> (List.length buf <= room caps)%nat ->
  batches m d buf dst caps = hdecode m d buf dst.
Proof.
  intros m caps d buf dst Hw Hb Hl. rewrite C102_batches.
  destruct (hdecode_total m d buf dst Hw Hb) as (prs & rest & d' & hs & s & E & Hp & Hi & He & _ & E2).
  rewrite E2. subst buf. apply hdecode_exact_ok; auto.
  assert (L : (List.length prs <= List.length (wire_octets prs))%nat).
  { clear - Hp. induction Hp as [|[b r] prs Hr Hp IH]; [cbn; lia|].
    unfold wire_octets in *. cbn [map concat fst List.length] in *. rewrite app_length.
    cbn [fst snd] in Hr. apply repr_wire_nonempty in Hr. lia. }
  rewrite app_length in Hl. destruct rest as [|x rest].
  - assert (s = Done) as ->.
    { inversion He as [|? f Hf|b r rest e Hw1 _ Hz]; [reflexivity|elim (repr_fault_nonempty _ _ _ Hf); reflexivity|].
      apply repr_wire_nonempty in Hw1. destruct b; [cbn in Hw1; lia|discriminate]. }
    destruct (Nat.eq_dec (List.length prs) (room caps)); [left; auto|right; split; [lia|exact He]].
  - right. cbn [List.length] in Hl. split; [lia|exact He].
Qed.
Print Assumptions C102_decode.

(* Four fields in batches of 1, 0 and 2, then of 5; and a bad index in the second batch. *)
Example C102_case : forall m,
  let block := [130; 64; 1; 97; 1; 98; 190; 132] in
  wf (dtable decoder_default) /\ bytes block /\
  batches m decoder_default block [] [1; 0; 2; 5]%nat = hdecode m decoder_default block [] /\
  batches m decoder_default block [] [1; 2]%nat =
    ((mkDec FiveBits 4096 (mkDyn [([97], [98])] 34 4096), [132],
      [(octets ":method", octets "GET", 0); ([97], [98], 4); ([97], [98], 0)]), Ok 7) /\
  batches m decoder_default [130; 198; 130] [] [1; 1; 1]%nat =
    ((decoder_default, [198; 130], [(octets ":method", octets "GET", 0)]), Err DInvalidIndex).
Proof.
  intros m. cbv zeta. refine (conj wf_default (conj _ _)); [repeat constructor|].
  destruct m; vm_compute; repeat split; reflexivity.
Qed.
