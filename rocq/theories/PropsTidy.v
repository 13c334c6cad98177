(* Property theorems C97 (what the flag bits mean) and C98 (no header is stored twice). *)
From Coq Require Import String Ascii.
From Verif Require Import Base HuffTables HuffModel HuffSpec Leb HpackStatic HpackModel
  HpackSpec HpackApi HpackInt HpackTab HpackDec HpackEnc HpackDerived HpackMore HpackTidy.
Open Scope list_scope.
Open Scope N_scope.

(* C97: inputs whose flags differ only in bits that do not count for them are encoded
   alike: same octets, same result, same table; nothing is assumed about the table. *)
Theorem C97_flags : forall m t f f' dst, flags_lt f -> flags_lt f' -> same_request f f' ->
  hencode m t f dst = hencode m t f' dst.
Proof. exact same_request_ok. Qed.
Print Assumptions C97_flags.

(* In particular the three upper bits are ignored, 0x8 is ignored beside 0x4, and an indexed
   name ignores 0x1 and 0x10. *)
Theorem C97_ignored : forall m t n v i fl dst, fl < 256 ->
  hencode m t (Literal n v fl) dst = hencode m t (Literal n v (fl mod 32)) dst /\
  hencode m t (IndexedName i v fl) dst = hencode m t (IndexedName i v (N.land fl 14)) dst /\
  (N.testbit fl 2 = true -> hencode m t (Literal n v fl) dst = hencode m t (Literal n v (N.land fl 23)) dst).
Proof.
  intros m t n v i fl dst L.
  assert (B : forall k, N.land fl k < 256).
  { intros k. destruct (N.eq_dec (N.land fl k) 0) as [->|E]; [lia|].
    change 256 with (2 ^ 8). apply N.log2_lt_pow2; [lia|].
    pose proof (N.log2_land fl k). assert (N.log2 fl < 8); [|lia].
    destruct (N.eq_dec fl 0) as [->|E']; [cbn; lia|]. apply N.log2_lt_pow2; [lia|exact L]. }
  split; [|split].
  - apply same_request_ok; [exact L|cbn [flags_lt]; pose proof (N.mod_lt fl 32); lia|].
    cbn [same_request]. change 32 with (2 ^ 5). unfold same_kind. rewrite !N.mod_pow2_bits_low by lia.
    repeat (split; [auto|]). auto.
  - apply same_request_ok; [exact L|apply B|]. cbn [same_request]. unfold same_kind. rewrite !N.land_spec.
    change (N.testbit 14 1) with true. change (N.testbit 14 2) with true. change (N.testbit 14 3) with true.
    rewrite !andb_true_r. repeat (split; [auto|]). auto.
  - intros H. apply same_request_ok; [exact L|apply B|]. cbn [same_request]. unfold same_kind. rewrite !N.land_spec.
    change (N.testbit 23 0) with true. change (N.testbit 23 1) with true. change (N.testbit 23 2) with true.
    change (N.testbit 23 4) with true. rewrite !andb_true_r. repeat (split; [auto|]). auto.
Qed.
Print Assumptions C97_ignored.

(* No other bit is ignored: each of the five makes a difference. *)
Theorem C97_significant : forall m dst b, In b [1; 2; 4; 8; 16] ->
  hencode m encoder_default (Literal (octets ":method") (octets "PUT") b) dst <>
  hencode m encoder_default (Literal (octets ":method") (octets "PUT") 0) dst.
Proof.
  assert (X : forall m m' t f f' o o' b b' dst, wf t -> input_ok f -> input_ok f' ->
    hencode m' t f [] = ((o, b), Ok tt) -> hencode m' t f' [] = ((o', b'), Ok tt) -> b <> b' -> 
    hencode m t f dst <> hencode m t f' dst).
  { intros m m' t f f' o o' b b' dst W I I' E E' Hne H.
    destruct (hencode_same m m' t f dst [] W I) as (t1 & c & r & A1 & A2).
    destruct (hencode_same m m' t f' dst [] W I') as (t2 & c' & r' & B1 & B2).
    rewrite E in A2. rewrite E' in B2. injection A2 as _ Hb _. injection B2 as _ Hb' _.
    rewrite A1, B1 in H. assert (Hd : dst ++ c = dst ++ c') by congruence.
    apply app_inv_head in Hd. apply Hne. cbn [app] in Hb, Hb'. congruence. }
  intros m dst b Hb.
  assert (Hs : forall s, bytes (octets s)).
  { intros s. apply octets_bytes. }
  assert (W : wf encoder_default) by (vm_compute; repeat split; discriminate).
  cbn [In] in Hb. destruct Hb as [<-|[<-|[<-|[<-|[<-|[]]]]]].
  all: eapply (X m Release encoder_default); [exact W|cbn [input_ok]; repeat split; auto; lia|cbn [input_ok]; repeat split; auto; lia| | |];
    [vm_compute; reflexivity|vm_compute; reflexivity|discriminate].
Qed.
Print Assumptions C97_significant.

(* C98: an encoder that stores headers only with the best-format flag never holds a header
   twice, nor one that is in the static table: every header has at most one index. *)
Theorem C98_one_index : forall m max ops dst, max < 2 ^ 32 -> Forall op_typed ops -> Forall tidy ops ->
  let t := fst (fst (run_ops m (encoder_with_dynamic_size max) dst ops)) in
  forall i j e, table_get t i = Some e -> table_get t j = Some e -> i = j.
Proof.
  intros m max ops dst Hm Hty Htd t i j e Hi Hj. rewrite get_lookup in Hi, Hj.
  assert (W0 : wf (encoder_with_dynamic_size max)) by (apply wf_new; exact Hm).
  eapply (nodup_index t); [apply run_ops_wf; assumption| |exact Hi|exact Hj].
  apply session_nodup; auto. cbn [encoder_with_dynamic_size table_with_size inner]. rewrite app_nil_r. exact static_nodup.
Qed.
Print Assumptions C98_one_index.

(* Also from any table in which this holds. *)
Theorem C98_kept : forall m ops t dst, wf t -> Forall op_typed ops -> Forall tidy ops ->
  NoDup (rfc_static ++ inner t) -> NoDup (rfc_static ++ inner (fst (fst (run_ops m t dst ops)))).
Proof. intros m ops t dst. exact (session_nodup m ops t dst). Qed.
Print Assumptions C98_kept.

(* The session a, b, a, b with flags 0x14: two entries; without the flag 0x10 four.  And a
   header of the static table is not stored. *)
Example C98_case : forall m,
  let go fl := map (fun n => Send (Literal [n] [120] fl)) [97; 98; 97; 98] in
  let t fl := fst (fst (run_ops m (encoder_with_dynamic_size 4096) [] (go fl))) in
  Forall op_typed (go 20) /\ Forall tidy (go 20) /\ ~ Forall tidy (go 4) /\
  inner (t 20) = [([98], [120]); ([97], [120])] /\ List.length (inner (t 4)) = 4%nat /\
  table_get (t 4) 62 = table_get (t 4) 64 /\
  inner (fst (fst (hencode m encoder_default (Literal (octets ":method") (octets "GET") 20) []))) = [].
Proof.
  intros m. cbv zeta. split; [|split; [|split]].
  - cbn [map]. repeat (constructor; [cbn [op_typed input_ok]; repeat split; try lia; repeat constructor; lia|]). constructor.
  - cbn [map]. repeat (constructor; [cbn [tidy]; intros _; reflexivity|]). constructor.
  - intros H. cbn [map] in H. inversion H as [|? ? H1 _]. cbn [tidy] in H1. discriminate (H1 eq_refl).
  - destruct m; vm_compute; repeat split; reflexivity.
Qed.

(* 0xe4 is 0x4; 0xc and 0x4 agree; 0x1 concerns the name only. *)
Example C97_case : forall m,
  same_request (Literal [97] [98] 228) (Literal [97] [98] 4) /\
  same_request (Literal [97] [98] 12) (Literal [97] [98] 4) /\
  same_request (IndexedName 2 [98] 17) (IndexedName 2 [98] 0) /\
  ~ same_request (Literal [97] [98] 8) (Literal [97] [98] 0) /\
  hencode m encoder_default (Literal [97] [98] 236) [] = ((mkDyn [([97], [98])] 34 4096, [64; 1; 97; 1; 98]), Ok tt).
Proof.
  intros m. cbn [same_request]. unfold same_kind. split; [|split; [|split; [|split]]].
  - repeat split; try reflexivity. left. reflexivity.
  - repeat split; try reflexivity. left. reflexivity.
  - repeat split; try reflexivity. right. reflexivity.
  - intros (_ & _ & (_ & [H|H]) & _); discriminate H.
  - destruct m; vm_compute; reflexivity.
Qed.
