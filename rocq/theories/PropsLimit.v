(* C103: what the limit on table size updates decides. *)
From Coq Require Import String Ascii.
From Verif Require Import Base HuffTables HuffModel HuffSpec Leb HpackStatic HpackModel
  HpackSpec HpackApi HpackInt HpackStr HpackTab HpackDec HpackDerived.
Open Scope list_scope.
Open Scope N_scope.

(* ------------------------------------------------------------------ *)
(* The largest table size update among representations (0 if there is none). *)
Fixpoint top_update (rs : list repr) : N :=
  match rs with
  | [] => 0
  | RSize n :: rs' => N.max n (top_update rs')
  | _ :: rs' => top_update rs'
  end.

(* ------------------------------------------------------------------ *)
Lemma interp_other L L' d r : is_size r = false -> interp L d r = interp L' d r.
Proof. destruct r; try reflexivity. discriminate. Qed.

Lemma interp_all_above L L' rs : forall d d' hs, interp_all L d rs = Some (d', hs) -> top_update rs <= L' ->
  interp_all L' d rs = Some (d', hs).
Proof.
  induction rs as [|r rs IH]; intros d d' hs Hi Ht; [exact Hi|]. cbn [interp_all] in *.
  assert (E : interp L' d r = interp L d r /\ top_update rs <= L').
  { destruct r as [i|k nr h v|n]; cbn [top_update] in Ht; try (split; [reflexivity|exact Ht]).
    split; [|lia]. cbn [interp] in *. destruct (n <=? L) eqn:E; [|discriminate].
    rewrite (proj2 (N.leb_le n L')); [reflexivity|lia]. }
  destruct E as [-> Ht']. destruct (interp L d r) as [[d1 h]|]; [|discriminate].
  destruct (interp_all L d1 rs) as [[d2 hs2]|] eqn:E; [|discriminate]. now rewrite (IH _ _ _ E Ht').
Qed.

(* Below the largest update, interpretation stops in front of the first one above L'. *)
Lemma interp_all_below L L' prs : forall d d' hs, interp_all L d (reprs prs) = Some (d', hs) ->
  L' < top_update (reprs prs) ->
  exists p1 b n p2 d1 h1 h2, prs = p1 ++ (b, RSize n) :: p2 /\ L' < n /\
    interp_all L' d (reprs p1) = Some (d1, h1) /\ hs = h1 ++ h2.
Proof.
  induction prs as [|[b r] prs IH]; intros d d' hs Hi Ht; [cbn in Ht; lia|].
  unfold reprs in *. cbn [map snd interp_all] in *.
  destruct (interp L d r) as [[d1 h]|] eqn:Er; [|discriminate].
  destruct (interp_all L d1 (map snd prs)) as [[d2 hs2]|] eqn:E; [|discriminate]. injection Hi as -> <-.
  assert (C : (exists n, r = RSize n /\ L' < n) \/ interp L' d r = inl (d1, h) /\ L' < top_update (map snd prs)).
  { destruct r as [i|k nr hu v|n]; cbn [top_update] in Ht; try (right; split; [exact Er|exact Ht]).
    destruct (N.lt_ge_cases L' n) as [Hn|Hn]; [left; eauto|right]. split; [|lia].
    cbn [interp] in *. rewrite (proj2 (N.leb_le n L')) by lia. destruct (n <=? L); [exact Er|discriminate]. }
  destruct C as [(n & -> & Hn)|[Er' Ht']].
  - exists [], b, n, prs, d, [], (h ++ hs2). refine (conj eq_refl (conj Hn (conj eq_refl eq_refl))).
  - destruct (IH _ _ _ E Ht') as (p1 & b' & n & p2 & x & h1 & h2 & -> & Hn & Hx & ->).
    exists ((b, r) :: p1), b', n, p2, x, (h ++ h1), h2. refine (conj eq_refl (conj Hn (conj _ (app_assoc _ _ _)))).
    cbn [map snd interp_all]. now rewrite Er', Hx.
Qed.

Lemma ends_other L L' d rest s : ends L d rest s -> s <> Refused BadSize -> ends L' d rest s.
Proof.
  intros He Hs. destruct He as [|rest f Hf|b r rest e Hr Hi]; [constructor|constructor; exact Hf|].
  apply ends_refused with r; [exact Hr|]. destruct r as [i|k nr h v|n]; try exact Hi. cbn [interp] in *.
  destruct (n <=? L); [discriminate|]. injection Hi as <-. congruence.
Qed.

(* C103: for every decoder and every block there is a threshold, the largest size update
   that would be reached: with a limit from there on the result is the same whatever the limit,
   in either build; with a smaller limit decode stops with InvalidMaxDynamicSize in front of
   the first update above the limit, with the headers before it. *)
Theorem C103_threshold : forall d buf, wf (dtable d) -> bytes buf ->
  exists top t' rest hs o, top <= 2 ^ 28 + 30 /\ o <> Err DInvalidMaxDynamicSize /\
    (forall m L dst, top <= L ->
       hdecode m (decoder_set_max d L) buf dst = ((decoder_set_max (set_table d t') L, rest, dst ++ hs), o)) /\
    (forall m L dst, L < top ->
       exists t1 b n rest1 hs1 hs2,
         hdecode m (decoder_set_max d L) buf dst =
           ((decoder_set_max (set_table d t1) L, b ++ rest1, dst ++ hs1), Err DInvalidMaxDynamicSize) /\
         int_wire 5 5 1 b n /\ L < n /\ hs = hs1 ++ hs2).
Proof.
  intros d buf Hw Hb.
  destruct (hdecode_total Debug (decoder_set_max d (2 ^ 28 + 30)) buf [] Hw Hb) as (prs & rest & d' & hs & s & E & Hp & Hi & He & Hw' & _).
  cbn [decoder_set_max dlimit dtable] in Hi, He.
  assert (Bd : forall b n, repr_wire 5 code_padding b (RSize n) -> n <= 2 ^ 28 + 30).
  { intros b n Hr. inversion Hr as [| | |? ? Hn]; subst. apply int_wire_bound in Hn; [|unfold prefix_ok; lia].
    change (2 ^ 5 - 1 + 2 ^ 28) with (2 ^ 28 + 31) in Hn. lia. }
  exists (top_update (reprs prs)), (conc d'), rest, hs, (stop_outcome s (counted prs)).
  assert (Hs : s <> Refused BadSize).
  { intros ->. inversion He as [| |b r rest' e Hr Hx]; subst. destruct r as [i|k nr h v|n]; cbn [interp] in Hx.
    - destruct (lookup _ i) as [[? ?]|]; discriminate.
    - destruct (resolve _ nr); discriminate.
    - rewrite (proj2 (N.leb_le n (2 ^ 28 + 30))) in Hx; [discriminate|]. eapply Bd; eauto. }
  refine (conj _ (conj _ (conj _ _))).
  - clear - Hp Bd. induction Hp as [|[b r] prs Hr Hp IH]; [cbn; lia|]. unfold reprs in *. cbn [map snd top_update] in *.
    destruct r; try exact IH. apply N.max_lub; [eapply Bd; eauto|exact IH].
  - destruct s as [|f|[]]; cbn; try discriminate; [destruct f; discriminate|congruence].
  - intros m L dst HL. rewrite E. rewrite (hdecode_ok m (decoder_set_max d L) prs rest d' hs s dst); auto.
    + rewrite <- E. exact Hb.
    + exact (interp_all_above _ L _ _ _ _ Hi HL).
    + exact (ends_other _ L _ _ _ He Hs).
  - intros m L dst HL.
    destruct (interp_all_below _ L _ _ _ _ Hi HL) as (p1 & b & n & p2 & d1 & h1 & h2 & -> & Hn & H1 & ->).
    exists (conc d1), b, n, (wire_octets p2 ++ rest), h1, h2.
    assert (Hp1 : wires 5 code_padding p1) by (apply Forall_app in Hp; apply Hp).
    assert (Hr : repr_wire 5 code_padding b (RSize n)) by (apply Forall_app in Hp; destruct Hp as [_ Hp]; inversion Hp; auto).
    refine (conj _ (conj _ (conj Hn eq_refl))); [|inversion Hr; auto].
    assert (Eb : buf = wire_octets p1 ++ b ++ wire_octets p2 ++ rest).
    { rewrite E. unfold wire_octets. rewrite map_app, concat_app. cbn [map concat fst]. rewrite <- !app_assoc. reflexivity. }
    rewrite Eb. apply (hdecode_ok m (decoder_set_max d L) p1 _ d1 h1 (Refused BadSize) dst); auto.
    + rewrite <- Eb. exact Hb.
    + apply ends_refused with (RSize n); [exact Hr|]. cbn [interp decoder_set_max dlimit].
      now rewrite (proj2 (N.leb_gt n L)).
Qed.
Print Assumptions C103_threshold.

(* So raising the limit changes nothing unless InvalidMaxDynamicSize was the verdict, and
   then it only adds headers and consumes more. *)
Theorem C103_raise : forall m m' d L buf dst d1 rest dst1 o, wf (dtable d) -> bytes buf -> dlimit d <= L ->
  hdecode m d buf dst = ((d1, rest, dst1), o) ->
  (o <> Err DInvalidMaxDynamicSize ->
     hdecode m' (decoder_set_max d L) buf dst = ((decoder_set_max d1 L, rest, dst1), o)) /\
  exists d2 used rest2 more o2, rest = used ++ rest2 /\
    hdecode m' (decoder_set_max d L) buf dst = ((d2, rest2, dst1 ++ more), o2).
Proof.
  intros m m' d L buf dst d1 rest dst1 o Hw Hb HL E.
  destruct (hdecode_total m' (decoder_set_max d L) buf dst Hw Hb) as (prs & r2 & d' & hs & s & E2 & Hp & Hi & He & _ & Hd).
  cbn [decoder_set_max dlimit dtable] in Hi, He. rewrite Hd.
  destruct (N.le_gt_cases (top_update (reprs prs)) (dlimit d)) as [Ht|Ht].
  - assert (He' : ends (dlimit d) d' r2 s).
    { destruct He as [|r2 f Hf|b r r2 e Hr Hx]; [constructor|constructor; exact Hf|].
      apply ends_refused with r; [exact Hr|]. destruct r as [i|k nr h v|n]; try exact Hx. cbn [interp] in *.
      destruct (n <=? L) eqn:En; [discriminate|]. apply N.leb_gt in En. injection Hx as <-.
      now rewrite (proj2 (N.leb_gt n (dlimit d))) by lia. }
    pose proof (interp_all_above _ (dlimit d) _ _ _ _ Hi Ht) as Hi'.
    assert (E1 : hdecode m d buf dst = ((set_table d (conc d'), r2, dst ++ hs), stop_outcome s (counted prs))).
    { rewrite E2. apply hdecode_ok; auto. rewrite <- E2. exact Hb. }
    rewrite E in E1. injection E1 as -> -> -> ->. split; [intros _; reflexivity|].
    exists (set_table (decoder_set_max d L) (conc d')), [], r2, [], (stop_outcome s (counted prs)). now rewrite app_nil_r.
  - destruct (interp_all_below _ (dlimit d) _ _ _ _ Hi Ht) as (p1 & b & n & p2 & x & h1 & h2 & -> & Hn & H1 & ->).
    assert (Hp1 : wires 5 code_padding p1) by (apply Forall_app in Hp; apply Hp).
    assert (Hr : repr_wire 5 code_padding b (RSize n)) by (apply Forall_app in Hp; destruct Hp as [_ Hp']; inversion Hp'; auto).
    assert (Eb : buf = wire_octets p1 ++ (b ++ wire_octets p2) ++ r2).
    { rewrite E2. unfold wire_octets. rewrite map_app, concat_app. cbn [map concat fst]. rewrite <- !app_assoc. reflexivity. }
    assert (E1 : hdecode m d buf dst =
      ((set_table d (conc x), (b ++ wire_octets p2) ++ r2, dst ++ h1), stop_outcome (Refused BadSize) (counted p1))).
    { rewrite Eb. apply hdecode_ok; auto; [rewrite <- Eb; exact Hb|]. rewrite <- app_assoc.
      apply ends_refused with (RSize n); [exact Hr|]. cbn [interp]. now rewrite (proj2 (N.leb_gt n (dlimit d))). }
    rewrite E in E1. injection E1 as -> -> -> ->. split; [intros Hne; elim Hne; reflexivity|].
    rewrite app_assoc. repeat eexists.
Qed.
Print Assumptions C103_raise.

(* Updates to 40 and to 60 around three headers: the threshold is 60. *)
Example C103_case : forall m,
  let block := [130; 63; 9; 64; 1; 97; 1; 98; 63; 29; 190] in
  let d L := decoder_set_max (decoder_with_dynamic_size 4096) L in
  wf (dtable (d 0)) /\ bytes block /\
  hdecode m (d 39) block [] =
    ((d 39, [63; 9; 64; 1; 97; 1; 98; 63; 29; 190], [(octets ":method", octets "GET", 0)]), Err DInvalidMaxDynamicSize) /\
  hdecode m (d 59) block [] =
    ((mkDec FiveBits 59 (mkDyn [([97], [98])] 34 40), [63; 29; 190],
      [(octets ":method", octets "GET", 0); ([97], [98], 4)]), Err DInvalidMaxDynamicSize) /\
  hdecode m (d 60) block [] =
    ((mkDec FiveBits 60 (mkDyn [([97], [98])] 34 60), [],
      [(octets ":method", octets "GET", 0); ([97], [98], 4); ([97], [98], 0)]), Ok 7) /\
  hdecode m (d 4096) block [] =
    ((mkDec FiveBits 4096 (mkDyn [([97], [98])] 34 60), [],
      [(octets ":method", octets "GET", 0); ([97], [98], 4); ([97], [98], 0)]), Ok 7).
Proof.
  intros m. cbv zeta. refine (conj wf_default (conj _ _)); [repeat constructor|].
  destruct m; vm_compute; repeat split; reflexivity.
Qed.
