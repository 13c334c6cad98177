(* C105: how many headers decode_exact gives. *)
From Coq Require Import String Ascii.
From Verif Require Import Base HuffTables HuffModel HuffSpec Leb HpackStatic HpackModel
  HpackSpec HpackApi HpackInt HpackStr HpackTab HpackDec HpackDerived.
Open Scope list_scope.
Open Scope N_scope.

(* ------------------------------------------------------------------ *)
Lemma one_each L prs : forall d d' hs, interp_all L d (reprs prs) = Some (d', hs) ->
  forallb (fun r => negb (is_size r)) (reprs prs) = true ->
  List.length hs = List.length prs /\
  forall k, exists d1, interp_all L d (reprs (firstn k prs)) = Some (d1, firstn k hs).
Proof.
  unfold reprs. induction prs as [|[b r] prs IH]; intros d d' hs Hi Hf.
  - cbn in Hi. injection Hi as -> <-. split; [reflexivity|]. intros k. rewrite !firstn_nil. exists d'. reflexivity.
  - cbn [map snd interp_all forallb] in *. apply andb_true_iff in Hf as [Hr Hf].
    destruct (interp L d r) as [[d1 h]|] eqn:Er; [|discriminate].
    destruct (interp_all L d1 (map snd prs)) as [[d2 hs2]|] eqn:E; [|discriminate]. injection Hi as -> <-.
    destruct (IH _ _ _ E Hf) as [Hl Hk].
    assert (exists x, h = [x]) as (x & ->).
    { destruct r as [i|k nr hu v|n]; cbn [interp] in Er; [| |discriminate].
      - destruct (lookup _ i) as [[? ?]|]; [|discriminate]. injection Er as _ <-. eauto.
      - destruct (resolve _ nr); [|discriminate]. injection Er as _ <-. eauto. }
    split; [cbn; congruence|]. intros [|k]; [exists d; reflexivity|].
    destruct (Hk k) as [x1 Hx]. exists x1. cbn [firstn map snd interp_all app]. now rewrite Er, Hx.
Qed.

Lemma at_most L prs : forall d d' hs, interp_all L d (reprs prs) = Some (d', hs) -> (List.length hs <= List.length prs)%nat.
Proof.
  unfold reprs. induction prs as [|[b r] prs IH]; intros d d' hs Hi; [cbn in Hi; injection Hi as _ <-; cbn; lia|].
  cbn [map snd interp_all] in *. destruct (interp L d r) as [[d1 h]|] eqn:Er; [|discriminate].
  destruct (interp_all L d1 (map snd prs)) as [[d2 hs2]|] eqn:E; [|discriminate]. injection Hi as _ <-.
  apply IH in E. rewrite app_length. cbn [List.length].
  assert (List.length h <= 1)%nat; [|lia].
  destruct r as [i|k nr hu v|n]; cbn [interp] in Er.
  - destruct (lookup _ i) as [[? ?]|]; [|discriminate]. injection Er as _ <-. cbn. lia.
  - destruct (resolve _ nr); [|discriminate]. injection Er as _ <-. cbn. lia.
  - destruct (n <=? L); [|discriminate]. injection Er as _ <-. cbn. lia.
Qed.

(* C105: decode_exact appends at most as many headers as the vector has capacity, whatever
   the input; so a vector that was empty is not reallocated ... *)
Theorem C105_at_most_partial : forall m cap d buf dst, wf (dtable d) -> bytes buf ->
  exists d' rest hs o, hdecode_exact m cap d buf dst = ((d', rest, dst ++ hs), o) /\ (List.length hs <= cap)%nat.
Proof.
  intros m cap d buf dst Hw Hb.
  destruct (hdecode_exact_total m cap d buf dst Hw Hb) as (prs & rest & d' & hs & s & _ & _ & Hl & Hi & _ & _ & E).
  exists (set_table d (conc d')), rest, hs, (stop_outcome s (counted prs)). split; [exact E|].
  apply at_most in Hi. lia.
Qed.
Print Assumptions C105_at_most_partial.

(* ... and exactly as many as that, or all there are, in a block without size updates (that
   is, one for which decode returns its length, C28). *)
Theorem C105_exactly_partial : forall m m' cap d buf dst d1 all, wf (dtable d) -> bytes buf ->
  hdecode m d buf [] = ((d1, [], all), Ok (N.of_nat (List.length buf))) ->
  exists d' rest n, hdecode_exact m' cap d buf dst = ((d', rest, dst ++ firstn cap all), Ok n).
Proof.
  intros m m' cap d buf dst d1 all Hw Hb E.
  destruct (hdecode_total m d buf [] Hw Hb) as (prs & r0 & d' & hs & s & E1 & Hp & Hi & E2 & _ & E3).
  rewrite E in E3. pose proof (f_equal snd E3) as D. pose proof (f_equal (fun z => snd (fst z)) E3) as R.
  cbn [fst snd app] in D, R. clear E3. subst hs.
  destruct s as [|f|e]; cbn [stop_outcome] in D; try discriminate D; [|destruct f; discriminate D].
  assert (R0 : r0 = []) by (inversion E2; reflexivity). injection D as Dn. subst r0. rewrite app_nil_r in E1.
  assert (F : forallb (fun r => negb (is_size r)) (reprs prs) = true).
  { destruct (forallb (fun r => negb (is_size r)) (reprs prs)) eqn:F; [reflexivity|].
    pose proof (counted_lt prs Hp F). rewrite E1 in Dn. lia. }
  destruct (one_each _ _ _ _ _ Hi F) as [Hl Hk]. destruct (Hk cap) as [d2 Hi2].
  assert (Ew : buf = wire_octets (firstn cap prs) ++ wire_octets (skipn cap prs)).
  { rewrite E1. rewrite <- (firstn_skipn cap prs) at 1. unfold wire_octets. rewrite map_app, concat_app. reflexivity. }
  exists (set_table d (conc d2)), (wire_octets (skipn cap prs)), (counted (firstn cap prs)).
  rewrite Ew in Hb |- *.
  change (Ok (counted (firstn cap prs))) with (stop_outcome Done (counted (firstn cap prs))).
  refine (hdecode_exact_ok m' cap d _ _ d2 _ Done dst Hw Hb _ Hi2 _).
  - unfold wires in *. rewrite <- (firstn_skipn cap prs) in Hp. apply Forall_app in Hp. apply Hp.
  - destruct (Nat.le_gt_cases cap (List.length prs)) as [Hc|Hc].
    + left. split; [|reflexivity]. apply firstn_length_le. exact Hc.
    + right. rewrite firstn_all2, skipn_all2 by lia. split; [exact Hc|]. constructor.
Qed.
Print Assumptions C105_exactly_partial.

(* The full statement, exactly as many headers as there is room, fails twice. A size update
   takes the place of a header: with room for one, the header that follows is not read. *)
Definition exact_as_room : Prop := forall m cap d buf dst d' rest dst' n all d1 k,
  wf (dtable d) -> bytes buf -> (List.length dst <= cap)%nat ->
  hdecode m d buf [] = ((d1, [], all), Ok k) -> (cap - List.length dst <= List.length all)%nat ->
  hdecode_exact m cap d buf dst = ((d', rest, dst'), Ok n) -> List.length dst' = cap.

Theorem C105_update_refuted : ~ exact_as_room.
Proof.
  intros H.
  assert (E1 : exists d1 all k, hdecode Debug decoder_default [32; 130] [] = ((d1, [], all), Ok k) /\ List.length all = 1%nat).
  { vm_compute. do 3 eexists. split; reflexivity. }
  assert (E2 : exists d' n, hdecode_exact Debug 1 decoder_default [32; 130] [] = ((d', [130], []), Ok n)).
  { vm_compute. do 2 eexists. reflexivity. }
  destruct E1 as (d1 & all & k & E1 & L). destruct E2 as (d' & n & E2).
  assert (Hb : bytes [32; 130]) by (repeat constructor; unfold is_byte; lia).
  assert (Hc : (1 - List.length (@nil (list N * list N * N)) <= List.length all)%nat) by (rewrite L; cbn; lia).
  pose proof (H Debug 1%nat decoder_default _ [] _ _ _ _ _ _ _ wf_default Hb (Nat.le_0_l _) E1 Hc E2) as X.
  cbn in X. discriminate X.
Qed.
Print Assumptions C105_update_refuted.

(* The capacity counts, not what is left of it: a vector that is full gets as many headers
   again and must be reallocated. *)
Theorem C105_reused_refuted : exists m cap d buf dst d' rest dst' n,
  wf (dtable d) /\ bytes buf /\ List.length dst = cap /\
  hdecode_exact m cap d buf dst = ((d', rest, dst'), Ok n) /\ List.length dst' = (2 * cap)%nat.
Proof.
  exists Debug, 2%nat, decoder_default, [130; 131; 132], [([97], [98], 0); ([99], [], 0)].
  assert (E : exists d' dst' n, hdecode_exact Debug 2 decoder_default [130; 131; 132] [([97], [98], 0); ([99], [], 0)]
    = ((d', [132], dst'), Ok n) /\ List.length dst' = 4%nat).
  { vm_compute. do 3 eexists. split; reflexivity. }
  destruct E as (d' & dst' & n & E & L). exists d', [132], dst', n.
  refine (conj wf_default (conj _ (conj eq_refl (conj E L)))).
  repeat constructor; unfold is_byte; lia.
Qed.
Print Assumptions C105_reused_refuted.

(* The vector of C105_exactly_partial: three headers, room for two. *)
Example C105_case :
  (exists d1 all, hdecode Debug decoder_default [130; 132; 64; 1; 97; 1; 98] [] = ((d1, [], all), Ok 7) /\
     List.length all = 3%nat) /\
  exists d' hs, hdecode_exact Release 2 decoder_default [130; 132; 64; 1; 97; 1; 98] [] =
    ((d', [64; 1; 97; 1; 98], hs), Ok 2) /\ List.length hs = 2%nat.
Proof. vm_compute. split; do 2 eexists; split; reflexivity. Qed.
