(* Decoder::decode when the allocator rounds capacities up.

   HpackModel.v takes `Vec::with_capacity(1)` to have capacity 1.  std only promises
   "at least 1", and `decode_exact` reads the capacity as its limit.  Here the i-th
   vector made by `decode` has capacity [caps i]. *)
From Verif Require Import Base HuffModel HpackModel HpackSpec HpackApi HpackTab HpackDec HpackEnc HpackDerived.
Open Scope list_scope.
Open Scope N_scope.

(* hpack/src/decoder/mod.rs:100-115, decode *)
Fixpoint decode_loop_caps (m : mode) (caps : nat -> nat) (i fuel : nat) (d : decoder) (buf : list N)
  (dst : list header) (total : N) : dec_state * outcome dec_error N :=
  match buf with
  | [] => ((d, buf, dst), Ok total)
  | _ =>
      match fuel with
      | O => ((d, buf, dst), OutOfFuel)
      | S fuel' =>
          match hdecode_exact m (caps i) d buf [] with
          | ((d', buf', data), Ok n) => decode_loop_caps m caps (S i) fuel' d' buf' (dst ++ data) (total + n)
          | ((d', buf', _), Err e) => ((d', buf', dst), Err e)
          | ((d', buf', _), Panic) => ((d', buf', dst), Panic)
          | ((d', buf', _), OutOfFuel) => ((d', buf', dst), OutOfFuel)
          end
      end
  end.
(* hpack/src/decoder/mod.rs:100-115, decode *)
Definition hdecode_caps (m : mode) (caps : nat -> nat) (d : decoder) (buf : list N) (dst : list header)
  : dec_state * outcome dec_error N :=
  decode_loop_caps m caps 0 (List.length buf) d buf dst 0.

Lemma decode_loop_caps_one m : forall fuel i d buf dst total,
  decode_loop_caps m (fun _ => 1%nat) i fuel d buf dst total = decode_loop m fuel d buf dst total.
Proof.
  induction fuel as [|fuel IH]; intros i d buf dst total; destruct buf; try reflexivity.
  cbn [decode_loop_caps decode_loop]. destruct (hdecode_exact m 1 d (n :: buf) []) as [[[d' buf'] data] []]; auto.
Qed.
Lemma hdecode_caps_one m d buf dst : hdecode_caps m (fun _ => 1%nat) d buf dst = hdecode m d buf dst.
Proof. apply decode_loop_caps_one. Qed.

Lemma ends_done_nil limit d rest : ends limit d rest Done -> rest = [].
Proof. inversion 1; reflexivity. Qed.

Lemma wires_octets_len prs : wires 5 code_padding prs -> (List.length prs <= List.length (wire_octets prs))%nat.
Proof.
  induction 1 as [|[bs r] prs Hr Hp IH]; [cbn; lia|].
  unfold wire_octets in *. cbn [map concat fst List.length] in *. rewrite app_length.
  cbn [fst snd] in Hr. apply repr_wire_nonempty in Hr. lia.
Qed.

Lemma interp_all_len limit : forall rs d d' hs, interp_all limit d rs = Some (d', hs) -> (List.length hs <= List.length rs)%nat.
Proof.
  induction rs as [|r rs IH]; intros d d' hs H; cbn [interp_all] in H; [injection H as <- <-; cbn; lia|].
  destruct (interp limit d r) as [[d1 h1]|] eqn:E; [|discriminate].
  destruct (interp_all limit d1 rs) as [[d2 h2]|] eqn:E2; [|discriminate].
  injection H as <- <-. apply IH in E2. rewrite app_length. cbn [List.length].
  assert (List.length h1 <= 1)%nat; [|lia].
  destruct r; cbn in E;
    repeat match type of E with context [match ?x with _ => _ end] => destruct x end;
    try discriminate; injection E as <- <-; cbn; lia.
Qed.

Lemma decode_loop_caps_ok m caps : (forall i, 1 <= caps i)%nat ->
  forall fuel i d prs rest d' hs s dst total,
  wf (dtable d) -> bytes (wire_octets prs ++ rest) -> wires 5 code_padding prs ->
  interp_all (dlimit d) (abs (dtable d)) (reprs prs) = Some (d', hs) ->
  ends (dlimit d) d' rest s -> (List.length (wire_octets prs ++ rest) <= fuel)%nat ->
  exists kept lost, hs = kept ++ lost /\ (s = Done -> lost = []) /\
    (lost = [] \/ exists j, (List.length lost < caps j)%nat) /\
    decode_loop_caps m caps i fuel d (wire_octets prs ++ rest) dst total =
      ((set_table d (conc d'), rest, dst ++ kept), stop_outcome s (total + counted prs)).
Proof.
  intros Hc. induction fuel as [|fuel IH]; intros i d prs rest d' hs s dst total Hw Hb Hp Hi He Hf.
  - destruct (wire_octets prs ++ rest) eqn:E; [|cbn in Hf; lia]. apply app_eq_nil in E as [E1 E2]. subst rest.
    pose proof (wires_octets_len prs Hp) as Hl. rewrite E1 in Hl. destruct prs; [|cbn in Hl; lia].
    cbn in Hi. injection Hi as <- <-. exists [], []. split; [reflexivity|]. split; [auto|]. split; [auto|].
    rewrite (set_table_same d Hw), app_nil_r. cbn [decode_loop_caps counted]. rewrite N.add_0_r.
    assert (s = Done) as -> by (inversion He as [|? f Hf0|b r ? e Hr Hx Hnil]; subst; auto;
      [elim (repr_fault_nonempty _ _ _ Hf0); reflexivity|
       apply repr_wire_nonempty in Hr; match goal with H : _ ++ _ = [] |- _ => apply app_eq_nil in H as [-> _] end; cbn in Hr; lia]).
    reflexivity.
  - destruct (wire_octets prs ++ rest) as [|c0 buf0] eqn:E.
    { apply app_eq_nil in E as [E1 E2]. subst rest.
      pose proof (wires_octets_len prs Hp) as Hl. rewrite E1 in Hl. destruct prs; [|cbn in Hl; lia].
      cbn in Hi. injection Hi as <- <-. exists [], []. split; [reflexivity|]. split; [auto|]. split; [auto|].
      rewrite (set_table_same d Hw), app_nil_r. cbn [decode_loop_caps counted]. rewrite N.add_0_r.
      assert (s = Done) as -> by (inversion He as [|? f Hf0|b r ? e Hr Hx Hnil]; subst; auto;
        [elim (repr_fault_nonempty _ _ _ Hf0); reflexivity|
         apply repr_wire_nonempty in Hr; match goal with H : _ ++ _ = [] |- _ => apply app_eq_nil in H as [-> _] end; cbn in Hr; lia]).
      reflexivity. }
    cbn [decode_loop_caps]. rewrite <- E in *. clear c0 buf0 E.
    destruct (Nat.lt_ge_cases (List.length prs) (caps i)) as [Hlt|Hge].
    + rewrite (hdecode_exact_ok m (caps i) d prs rest d' hs s [] Hw Hb Hp Hi (or_intror (conj Hlt He))). cbn [app].
      assert (Hlen : (List.length hs < caps i)%nat).
      { apply interp_all_len in Hi. unfold reprs in Hi. rewrite map_length in Hi. lia. }
      destruct s as [|f|e].
      * pose proof (ends_done_nil _ _ _ He) as ->. cbn [stop_outcome].
        exists hs, []. split; [now rewrite app_nil_r|]. split; [auto|]. split; [auto|].
        destruct fuel; reflexivity.
      * exists [], hs. split; [reflexivity|]. split; [discriminate|]. split; [eauto|].
        rewrite app_nil_r. cbn [stop_outcome]. destruct f; reflexivity.
      * exists [], hs. split; [reflexivity|]. split; [discriminate|]. split; [eauto|].
        rewrite app_nil_r. reflexivity.
    + destruct (wires_take prs (caps i) Hp Hge) as (p1 & p2 & Ep & Hl). subst prs.
      apply Forall_app in Hp as [Hp1 Hp2]. unfold reprs in Hi. rewrite map_app, interp_all_app in Hi.
      fold (reprs p1) (reprs p2) in Hi.
      destruct (interp_all (dlimit d) (abs (dtable d)) (reprs p1)) as [[d1 h1]|] eqn:E1; [|discriminate].
      destruct (interp_all (dlimit d) d1 (reprs p2)) as [[d2 h2]|] eqn:E2; [|discriminate].
      injection Hi as <- <-.
      rewrite wire_octets_app, <- app_assoc in *.
      rewrite (hdecode_exact_ok m (caps i) d p1 (wire_octets p2 ++ rest) d1 h1 Done [] Hw Hb Hp1 E1 (or_introl (conj Hl eq_refl))).
      cbn [stop_outcome app].
      assert (Hw1 : wf (conc d1)) by exact (interp_all_wf _ p1 _ _ _ (wfd_abs _ Hw) Hp1 E1).
      destruct (IH (S i) (set_table d (conc d1)) p2 rest d2 h2 s (dst ++ h1) (total + counted p1)) as (kept & lost & Eh & H1 & H2 & E3).
      * exact Hw1.
      * apply bytes_app in Hb. tauto.
      * exact Hp2.
      * cbn [dtable dlimit set_table]. rewrite abs_conc. exact E2.
      * exact He.
      * rewrite app_length in Hf. pose proof (wires_octets_len p1 Hp1). specialize (Hc i). lia.
      * exists (h1 ++ kept), lost. rewrite Eh, <- app_assoc. split; [reflexivity|]. split; [exact H1|]. split; [exact H2|].
        rewrite E3, <- !app_assoc. f_equal. rewrite counted_app. f_equal. lia.
Qed.

Theorem caps_irrelevant m m' caps d buf dst : wf (dtable d) -> bytes buf -> (forall i, 1 <= caps i)%nat ->
  exists d1 rest kept lost o,
    hdecode m d buf dst = ((d1, rest, dst ++ kept ++ lost), o) /\
    hdecode_caps m' caps d buf dst = ((d1, rest, dst ++ kept), o) /\
    (forall n, o = Ok n -> lost = []) /\
    (lost = [] \/ exists i, (List.length lost < caps i)%nat).
Proof.
  intros Hw Hb Hc. destruct (hdecode_total m d buf dst Hw Hb) as (prs & rest & d' & hs & s & E & Hp & Hi & He & _ & E3).
  subst buf. destruct (decode_loop_caps_ok m' caps Hc (List.length (wire_octets prs ++ rest)) 0 d prs rest d' hs s dst 0 Hw Hb Hp Hi He (le_n _))
    as (kept & lost & -> & H1 & H2 & E4).
  exists (set_table d (conc d')), rest, kept, lost, (stop_outcome s (counted prs)).
  split; [exact E3|]. split; [exact E4|]. split; [|exact H2].
  intros n Hn. apply H1. destruct s as [|f|e]; [reflexivity| |discriminate]. destruct f; discriminate.
Qed.
