(* Property theorem C92: where a table size update may stand (RFC 7541 sections 4.2, 6.3). *)
From Coq Require Import String Ascii.
From Verif Require Import Base HuffTables HuffModel HuffSpec Leb HpackStatic HpackModel
  HpackSpec HpackApi HpackInt HpackStr HpackTab HpackDec HpackEnc HpackDerived HpackMore.
Open Scope list_scope.
Open Scope N_scope.

(* C92, the full statement, is false: RFC 7541 section 4.2 wants a size update at the
   beginning of a block and, after the limit was lowered, wants one; the decoder takes an
   update between two headers, and goes on with a table above its limit. *)
Theorem C92_position_refuted : forall m,
  let h := (octets ":method", octets "GET", 0) in
  (* header, update to 100, header *)
  hdecode m decoder_default [130; 63; 69; 130] [] =
    ((mkDec FiveBits 4096 (mkDyn [] 0 100), [], [h; h]), Ok 2) /\
  (* the limit becomes 0, the next block stores a field *)
  hdecode m (decoder_set_max decoder_default 0) [64; 1; 97; 1; 98] [] =
    ((mkDec FiveBits 0 (mkDyn [([97], [98])] 34 4096), [], [([97], [98], 4)]), Ok 5).
Proof. intros []; split; reflexivity. Qed.
Print Assumptions C92_position_refuted.

(* What holds: after any octets that were decoded without error, an update (the octets bs
   of an integer n with prefix 001) within the limit makes n the maximum and evicts from
   the old end, and decoding goes on as with such a table; one above the limit ends
   decoding in front of it, with everything before it kept. *)
Theorem C92_update_partial : forall m d a dst d1 rest dst1 k bs n b, wf (dtable d) -> bytes (a ++ bs ++ b) ->
  hdecode m d a dst = ((d1, rest, dst1), Ok k) -> int_wire 5 5 1 bs n ->
  (n <= dlimit d -> exists d2 kept, wf (dtable d2) /\ dspeed d2 = dspeed d /\ dlimit d2 = dlimit d /\
     dmax (dtable d2) = n /\ inner (dtable d2) = kept /\ fits n (inner (dtable d1)) kept /\
     hdecode m d (a ++ bs ++ b) dst = (fst (hdecode m d2 b dst1), add_count k (snd (hdecode m d2 b dst1)))) /\
  (dlimit d < n -> hdecode m d (a ++ bs ++ b) dst = ((d1, bs ++ b, dst1), Err DInvalidMaxDynamicSize)).
Proof.
  intros m d a dst d1 rest dst1 k bs n b Hwf Hb E Hi.
  destruct (hdecode_concat m m m d a (bs ++ b) dst d1 rest dst1 k Hwf Hb E) as [Hrest Ec]. rewrite Ec.
  pose proof Hb as Hb'. apply bytes_app in Hb' as [Ha Hbb].
  destruct (hdecode_total m d a dst Hwf Ha) as (prs & r0 & d' & hs & s & _ & _ & _ & _ & Hw' & E').
  rewrite E in E'. injection E' as Ed Er Edst _. clear E.
  assert (W1 : wf (dtable d1)) by (rewrite Ed; exact Hw').
  assert (L1 : dlimit d1 = dlimit d) by now rewrite Ed.
  assert (S1 : dspeed d1 = dspeed d) by now rewrite Ed.
  assert (Hr : repr_wire 5 code_padding bs (RSize n)) by now constructor.
  split; intros Hn.
  - assert (Hws : wires 5 code_padding [(bs, RSize n)]) by (constructor; [exact Hr|constructor]).
    assert (Hbs : bytes bs) by now apply bytes_app in Hbb.
    pose proof (hdecode_ok m d1 [(bs, RSize n)] [] (resize (abs (dtable d1)) n) [] Done dst1 W1) as H.
    unfold wire_octets in H. cbn [map fst concat] in H. rewrite !app_nil_r in H.
    specialize (H Hbs Hws). cbn [reprs map snd interp_all interp] in H. rewrite L1, (proj2 (N.leb_le _ _) Hn) in H.
    specialize (H eq_refl (ends_done _ _)). cbn [stop_outcome counted fold_right is_size snd] in H.
    set (d2 := set_table d1 (conc (resize (abs (dtable d1)) n))) in *.
    destruct (hdecode_concat m m m d1 bs b dst1 _ _ _ _ W1 Hbb H) as [_ E2].
    exists d2, (inner (dtable d2)). split; [|split; [exact S1|split; [exact L1|split; [reflexivity|split; [reflexivity|split; [apply fit_fits|]]]]]].
    + apply wf_conc_fit. now apply (repr_size_bound bs).
    + rewrite E2. cbn [fst snd]. destruct (snd (hdecode m d2 b dst1)); reflexivity.
  - assert (Hend : ends (dlimit d1) (abs (dtable d1)) (bs ++ b) (Refused BadSize)).
    { apply ends_refused with (RSize n); [exact Hr|]. cbn [interp]. now rewrite L1, (proj2 (N.leb_gt _ _) Hn). }
    rewrite (hdecode_stop m d1 (bs ++ b) _ dst1 W1 Hbb Hend). reflexivity.
Qed.
Print Assumptions C92_update_partial.

(* Instances: after a stored field, an update to 40 keeps it and one to 33 evicts it (its
   size is 34), with a reference to it behind the update; one to 5000 is refused. *)
Example C92_holds_of :
  let d1 := mkDec FiveBits 4096 (mkDyn [([97], [98])] 34 4096) in
  hdecode Release decoder_default [64; 1; 97; 1; 98] [] = ((d1, [], [([97], [98], 4)]), Ok 5) /\
  int_wire 5 5 1 [63; 9] 40 /\ int_wire 5 5 1 [63; 2] 33 /\ int_wire 5 5 1 [63; 233; 38] 5000 /\
  snd (hdecode Release decoder_default ([64; 1; 97; 1; 98] ++ [63; 9] ++ [190]) []) = Ok 6 /\
  hdecode Release decoder_default ([64; 1; 97; 1; 98] ++ [63; 2] ++ [190]) [] =
    ((mkDec FiveBits 4096 (mkDyn [] 0 33), [190], [([97], [98], 4)]), Err DInvalidIndex) /\
  hdecode Release decoder_default ([64; 1; 97; 1; 98] ++ [63; 233; 38] ++ [190]) [] =
    ((d1, [63; 233; 38; 190], [([97], [98], 4)]), Err DInvalidMaxDynamicSize).
Proof.
  cbv zeta. split; [reflexivity|]. split.
  { apply (int_long 5 5 1 [9] 9); [apply leb_last; reflexivity|simpl; lia]. }
  split.
  { apply (int_long 5 5 1 [2] 2); [apply leb_last; reflexivity|simpl; lia]. }
  split.
  { apply (int_long 5 5 1 [233; 38] 4969); [|simpl; lia].
    change 4969 with (105 + 128 * 38). apply (leb_more 105); [reflexivity|]. apply leb_last; reflexivity. }
  repeat split; reflexivity.
Qed.
