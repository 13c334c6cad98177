(* C101: headers that fit the table together are sent in full at most once each.
   Vocabulary: the first part of HpackOnce.v (stores_in, best_indexed, send_all), stored
   (HpackRetain.v: the headers sent with indexing, newest first), size (HpackSpec.v). *)
From Coq Require Import String Ascii.
From Verif Require Import Base HuffTables HuffModel HuffSpec HuffDerived Leb HpackStatic HpackModel
  HpackSpec HpackApi HpackInt HpackStr HpackTab HpackDec HpackEnc HpackDerived HpackMore HpackMore2 HpackUnique HpackLength
  HpackRetain HpackTidy HpackOnce.
Open Scope list_scope.
Open Scope N_scope.

(* C101: if the headers D fit the table together, and calls store only headers of D, with the
   best-format flag (other calls may come in between), then whatever the table held before, a
   decoder in step receives each header in full and for indexing (flags 4) at most once, and
   at the end both tables begin with exactly the headers so received: none was evicted. *)
Theorem C101_once : forall m m' D ops t d dst0, wf t -> dtable d = t -> dlimit d < 2 ^ 32 ->
  Forall (op_ok (dlimit d)) ops -> Forall (stores_in D) ops -> NoDup D -> size D <= dmax t ->
  exists t' out rs n hs, run_ops m t [] ops = (t', out, rs) /\
    hdecode m' d out dst0 = ((set_table d t', [], dst0 ++ hs), Ok n) /\
    NoDup (stored hs) /\ incl (stored hs) D /\ prefix (stored hs) (inner t').
Proof.
  intros m m' D ops t d dst0 Hw Hd Hl Hok Hs HD Hsz.
  destruct (session_sync m m' ops d t dst0 Hw Hd Hl Hok) as (t' & out & n & Hr & _ & Hdec).
  assert (Hty : Forall op_typed ops).
  { eapply Forall_impl; [|exact Hok]. intros [f|k]; cbn; [now intros [A _]|]. intros [A _]. lia. }
  assert (Hno : no_overflow (snd (meaning (abs t) ops))).
  { clear. generalize (abs t). induction ops as [|o ops IH]; intros d H; [destruct H|]. rewrite meaning_cons in H.
    destruct (op_meaning d o) as [[d1 h] r] eqn:E. specialize (IH d1). unfold no_overflow in IH.
    destruct (meaning d1 ops) as [[d2 hs] rs]. cbn [snd] in *. destruct H as [H|H]; [|contradiction]. subst r.
    destruct o as [f|k]; cbn [op_meaning] in E; [|discriminate E].
    destruct (field_of (entries d) f) as [[? ?]|]; discriminate E. }
  destruct (once_encoder m D ops t [] t' out _ Hw Hty Hs HD Hsz Hr Hno) as (_ & _ & A & B & l' & _ & El).
  exists t', out, (snd (meaning (abs t) ops)), n, (snd (fst (meaning (abs t) ops))).
  refine (conj Hr (conj Hdec (conj A (conj B _)))). exists l'. exact El.
Qed.
Print Assumptions C101_once.

(* Once it was sent so, asking for it with the best-format flag gives an index and changes
   nothing; with at most 65 headers in D that is one octet. *)
Theorem C101_index : forall m D ops t dst t' dst' rs n v fl dst3, wf t -> Forall op_typed ops -> Forall (stores_in D) ops ->
  NoDup D -> size D <= dmax t -> run_ops m t dst ops = (t', dst', rs) -> no_overflow rs ->
  In (n, v) (stored (snd (fst (meaning (abs t) ops)))) -> input_ok (Literal n v fl) -> N.testbit fl 4 = true ->
  exists i bs, hencode m t' (Literal n v fl) dst3 = ((t', dst3 ++ bs), Ok tt) /\
    table_get t' i = Some (n, v) /\ i <= 61 + N.of_nat (List.length D) /\
    repr_wire 6 rfc_padding bs (RIndexed i) /\
    N.of_nat (List.length bs) <= int_octets 7 (61 + N.of_nat (List.length D)).
Proof. exact once_index. Qed.
Print Assumptions C101_index.

(* Octets: an encoder with an empty table that sends such headers, as often and in whatever
   order, each with 0x4 and 0x10, writes at most four times the size of the distinct headers
   (once, without Huffman coding) plus one index for each header sent. *)
Theorem C101_octets : forall m max D hs dst t' dst' rs, max < 2 ^ 32 -> NoDup D -> size D <= max ->
  Forall best_indexed hs -> incl (map fst hs) (rfc_static ++ D) ->
  run_ops m (encoder_with_dynamic_size max) dst (send_all hs) = (t', dst', rs) -> no_overflow rs ->
  exists out, dst' = dst ++ out /\ rs = map (fun _ => Ok tt) hs /\ incl (inner t') D /\
    N.of_nat (List.length out) <= 4 * size D + N.of_nat (List.length hs) * int_octets 7 (61 + N.of_nat (List.length D)) /\
    (Forall plain_op (send_all hs) ->
     N.of_nat (List.length out) <= size D + N.of_nat (List.length hs) * int_octets 7 (61 + N.of_nat (List.length D))).
Proof.
  intros m max D hs dst t' dst' rs Hmax HD Hsz Hb Hinc Hr Hno.
  pose proof (wf_new max Hmax) as Hw.
  destruct (once_octets_from m D hs (encoder_with_dynamic_size max) [] dst t' dst' rs Hw eq_refl HD Hsz (NoDup_nil _)
              (fun x (H : In x []) => match H with end) Hb Hinc Hr Hno) as (out & hs' & E & Em & _ & Er & El & L & P).
  destruct (once_encoder m D (send_all hs) (encoder_with_dynamic_size max) dst t' dst' rs Hw (send_all_typed hs Hb)
              (send_all_stores D hs Hb Hinc) HD Hsz Hr Hno) as (_ & _ & A & B & _).
  rewrite Em in A, B. pose proof (size_incl _ _ A B) as Sz.
  exists out. refine (conj E (conj Er (conj _ (conj _ _)))).
  - rewrite El, app_nil_r. exact B.
  - lia.
  - intros H. specialize (P H). lia.
Qed.
Print Assumptions C101_octets.

Theorem C101_one_octet : forall k, k <= 65 -> int_octets 7 (61 + k) = 1.
Proof. intros k H. unfold int_octets. change (2 ^ 7 - 1) with 127. now replace (61 + k <? 127) with true by (symmetry; apply N.ltb_lt; lia). Qed.
Print Assumptions C101_one_octet.

Lemma full m t f dst t' bs : wf t -> input_ok f -> hencode Debug t f [] = ((t', bs), Ok tt) ->
  hencode m t f dst = ((t', dst ++ bs), Ok tt).
Proof.
  intros Hw Hf E. destruct (hencode_same Debug m t f [] dst Hw Hf) as (t1 & b & o & A & B). rewrite A in E. injection E as -> -> ->.
  exact B.
Qed.

(* The condition is sharp: two headers of 34 octets in a table of 67, sent in turn.  Each is
   evicted before it is needed again, so all are sent in full, however often. *)
Theorem C101_sharp : forall m k dst,
  let ops := concat (repeat [Send (Literal [97] [98] 20); Send (Literal [99] [100] 20)] k) in
  size [([97], [98]); ([99], [100])] = 68 /\ Forall (stores_in [([97], [98]); ([99], [100])]) ops /\
  snd (fst (run_ops m (encoder_with_dynamic_size 67) dst ops)) =
    dst ++ concat (repeat [64; 1; 97; 1; 98; 64; 1; 99; 1; 100] k).
Proof.
  intros m k dst ops. split; [reflexivity|]. split.
  - subst ops. induction k as [|k IH]; cbn [repeat concat app]; [constructor|].
    constructor; [|constructor; [|exact IH]]; cbn [stores_in]; intros _; (split; [reflexivity|]); apply in_or_app; right; cbn; auto.
  - assert (G : forall k dst t, In t [mkDyn [] 0 67; mkDyn [([99], [100])] 34 67] ->
      snd (fst (run_ops m t dst (concat (repeat [Send (Literal [97] [98] 20); Send (Literal [99] [100] 20)] k)))) =
      dst ++ concat (repeat [64; 1; 97; 1; 98; 64; 1; 99; 1; 100] k)).
    { clear. induction k as [|k IH]; intros dst t Ht; cbn [repeat concat app]; [now rewrite app_nil_r|].
      rewrite run_ops_cons. cbn [op_step].
      assert (E1 : hencode m t (Literal [97] [98] 20) dst = ((mkDyn [([97], [98])] 34 67, dst ++ [64; 1; 97; 1; 98]), Ok tt)).
      { destruct Ht as [<-|[<-|[]]]; apply full; try reflexivity; repeat constructor; discriminate. }
      rewrite E1, run_ops_cons. cbn [op_step].
      assert (E2 : forall dst, hencode m (mkDyn [([97], [98])] 34 67) (Literal [99] [100] 20) dst =
        ((mkDyn [([99], [100])] 34 67, dst ++ [64; 1; 99; 1; 100]), Ok tt)).
      { intros dst0. apply full; try reflexivity; repeat constructor; discriminate. }
      rewrite E2. specialize (IH ((dst ++ [64; 1; 97; 1; 98]) ++ [64; 1; 99; 1; 100]) (mkDyn [([99], [100])] 34 67) ltac:(right; now left)).
      destruct (run_ops m _ _ _) as [[t3 dst3] rs3]. cbn [fst snd] in *. rewrite IH, <- !app_assoc. reflexivity. }
    apply G. now left.
Qed.
Print Assumptions C101_sharp.

(* A request of three headers, sent three times with a table of 200 octets: 11 octets
   the first time, then 3 each. *)
Example C101_case : forall m,
  let D := [(octets "a", octets "b"); (octets "c", octets "d")] in
  let request := [(octets ":method", octets "GET", 20); (octets "a", octets "b", 20); (octets "c", octets "d", 20)] in
  let go k := run_ops m (encoder_with_dynamic_size 200) [] (send_all (concat (repeat request k))) in
  NoDup D /\ size D = 68 /\ Forall best_indexed request /\ incl (map fst request) (rfc_static ++ D) /\
  snd (fst (go 1%nat)) = [130; 64; 1; 97; 1; 98; 64; 1; 99; 1; 100] /\
  snd (fst (go 3%nat)) = [130; 64; 1; 97; 1; 98; 64; 1; 99; 1; 100; 130; 191; 190; 130; 191; 190].
Proof.
  intros m. cbv zeta. refine (conj _ (conj eq_refl (conj _ (conj _ _)))).
  - apply distinct_ok. vm_compute. reflexivity.
  - repeat (apply Forall_cons; [split; [repeat constructor|split; reflexivity]|]). apply Forall_nil.
  - intros x [<-|[<-|[<-|[]]]]; apply in_or_app; [left|right; now left|right; right; now left].
    now do 1 (right); left.
  - destruct m; vm_compute; split; reflexivity.
Qed.
