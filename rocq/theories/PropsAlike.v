(* Property theorem C95: what a decoder remembers. *)
From Coq Require Import String Ascii.
From Verif Require Import Base HuffTables HuffModel HuffSpec Leb HpackStatic HpackModel
  HpackSpec HpackApi HpackTab HpackDec HpackAlike.
Open Scope list_scope.
Open Scope N_scope.

(* Two decoders that hold the same entries, with the same maximum and limit, answer any
   sequence of calls alike, whatever each went through before and whatever its speed ... *)
Theorem C95_no_hidden_state : forall m m' d1 d2 cs, wf (dtable d1) -> wf (dtable d2) -> Forall call_ok cs ->
  inner (dtable d1) = inner (dtable d2) -> dmax (dtable d1) = dmax (dtable d2) -> dlimit d1 = dlimit d2 ->
  call_answers m d1 cs = call_answers m' d2 cs.
Proof.
  intros m m' d1 d2 cs W1 W2 Hc E M L. apply same_state_calls; auto. split; [exact E|split; [now rewrite L|now left]].
Qed.
Print Assumptions C95_no_hidden_state.

(* ... and decoders that differ in one of these are told apart by some block, except
   for limits that differ only above the largest update that can be expressed (2^28 + 30),
   and for maxima that differ only below the size of the smallest entry (32). *)
Theorem C95_told_apart : forall m d1 d2, wf (dtable d1) -> wf (dtable d2) ->
  ((forall buf dst, bytes buf -> answer (hdecode m d1 buf dst) = answer (hdecode m d2 buf dst)) <->
   inner (dtable d1) = inner (dtable d2) /\
   N.min (dlimit d1) (2 ^ 28 + 30) = N.min (dlimit d2) (2 ^ 28 + 30) /\
   (dmax (dtable d1) = dmax (dtable d2) \/ dmax (dtable d1) < 32 /\ dmax (dtable d2) < 32)).
Proof. exact alike_iff. Qed.
Print Assumptions C95_told_apart.

(* Those two exceptions remain invisible through any number of calls. *)
Theorem C95_invisible : forall m m' d1 d2 cs, wf (dtable d1) -> wf (dtable d2) -> Forall call_ok cs ->
  (forall buf dst, bytes buf -> answer (hdecode m d1 buf dst) = answer (hdecode m d2 buf dst)) ->
  call_answers m d1 cs = call_answers m' d2 cs.
Proof. intros m m' d1 d2 cs W1 W2 Hc H. apply same_state_calls; auto. now apply (alike_iff m). Qed.
Print Assumptions C95_invisible.

(* Instances: tables of maximum 100 and 99 that both hold one entry of 34 octets (another
   of 66 octets fits beside it in the first only), and a decoder that reached a table through
   an eviction. *)
Example C95_holds_of :
  let e := ([97], [98]) in
  let d1 := mkDec FiveBits 4096 (mkDyn [e] 34 100) in
  let d2 := mkDec OneBit 4096 (mkDyn [e] 34 99) in
  let block := [64; 1; 99; 33] ++ repeat 100 33 ++ [191] in
  wf (dtable d1) /\ wf (dtable d2) /\
  snd (answer (hdecode Release d1 block [])) = Ok 38 /\
  snd (answer (hdecode Release d2 block [])) = Err DInvalidIndex /\
  hdecode Release (decoder_with_dynamic_size 34) [64; 1; 99; 1; 100; 64; 1; 97; 1; 98] [] =
    ((mkDec FiveBits 34 (mkDyn [e] 34 34), [], [([99], [100], 4); ([97], [98], 4)]), Ok 10) /\
  hdecode Release (decoder_with_dynamic_size 34) [64; 1; 97; 1; 98] [] =
    ((mkDec FiveBits 34 (mkDyn [e] 34 34), [], [([97], [98], 4)]), Ok 5).
Proof.
  cbv zeta. split; [vm_compute; repeat split; discriminate|]. split; [vm_compute; repeat split; discriminate|].
  repeat split; vm_compute; reflexivity.
Qed.
