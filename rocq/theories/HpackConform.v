(* Header blocks of any RFC 7541 encoder: integers of any number of octets, RFC padding.
   The decoder reads the block, or stops with an error at the first integer of more
   than five octets; it never reads it differently. *)
From Verif Require Import Base HuffTables HuffModel HuffSpec HuffDerived Leb HpackStatic HpackModel
  HpackSpec HpackApi HpackInt HpackStr HpackTab HpackDec HpackEnc HpackDerived HpackMore.
Open Scope list_scope.
Open Scope N_scope.

(* ------------------------------------------------------------------ *)
(* One representation: short enough, refused by the table, or faulty whatever follows. *)
Lemma wire_or_long L p hi bs v : prefix_ok p -> int_wire L p hi bs v ->
  int_wire 5 p hi bs v \/ forall rest, long_int p hi (bs ++ rest).
Proof.
  intros Hp H. destruct (Nat.le_gt_cases (length bs) 5) as [Hl|Hl].
  - left. eapply int_wire_le; [exact H|exact Hl].
  - right. intros rest. inversion H as [v0 Hv Hk|t r Ht Hk]; subst; cbn [length] in Hl; [lia|].
    exists (firstn 4 t), (skipn 4 t ++ rest). split; [|split].
    + cbn [app]. rewrite app_assoc, firstn_skipn. reflexivity.
    + eapply leb_front; [exact Ht|lia].
    + rewrite firstn_length. lia.
Qed.

Lemma string_or_long L h bs s : string_wire L rfc_padding h bs s ->
  string_wire 5 rfc_padding h bs s \/ forall rest, string_fault (bs ++ rest) Long.
Proof.
  intros H. destruct H as [lb s H|lb e s r H Hb Hs Hp].
  - destruct (wire_or_long L 7 0 lb _ p7 H) as [W|W]; [left; constructor; exact W|].
    right. intros rest. rewrite <- app_assoc. apply (sf_int 0); [lia|]. constructor. apply W.
  - destruct (wire_or_long L 7 1 lb _ p7 H) as [W|W]; [left; econstructor; eauto|].
    right. intros rest. rewrite <- app_assoc. apply (sf_int 1); [lia|]. constructor. apply W.
Qed.

Lemma string_rfc_code h bs s : string_wire 5 rfc_padding h bs s -> string_wire 5 code_padding h bs s.
Proof. intros H. destruct H; econstructor; eauto. now apply rfc_padding_accepted. Qed.

Lemma repr_rfc_code bs r : repr_wire 5 rfc_padding bs r -> repr_wire 5 code_padding bs r.
Proof. intros H. destruct H; constructor; auto using string_rfc_code. Qed.

Lemma repr_or_long L limit d bs r d' hs : repr_wire L rfc_padding bs r -> interp limit d r = inl (d', hs) ->
  repr_wire 5 rfc_padding bs r \/ forall rest, repr_fault (entries d) (bs ++ rest) Long.
Proof.
  intros H Hx. destruct H as [bs i H|k bi i hv bv v H Hi Hv|k bi hn bn n hv bv v H Hn Hv|bs n H].
  - destruct (wire_or_long L 7 1 bs _ p7 H) as [W|W]; [left; constructor; exact W|].
    right. intros rest. apply rf_indexed. constructor. apply W.
  - destruct (wire_or_long L _ _ bi _ (kp_ok k) H) as [W|W].
    + cbn [interp resolve] in Hx. destruct (lookup (entries d) i) as [e|] eqn:El; [|discriminate Hx].
      destruct (string_or_long L hv bv v Hv) as [T|T]; [left; constructor; auto|].
      right. intros rest. rewrite <- app_assoc. eapply rf_value1; eauto.
    + right. intros rest. rewrite <- app_assoc. eapply rf_name_index. constructor. apply W.
  - destruct (wire_or_long L _ _ bi _ (kp_ok k) H) as [W|W].
    + destruct (string_or_long L hn bn n Hn) as [T|T].
      * destruct (string_or_long L hv bv v Hv) as [T'|T']; [left; constructor; auto|].
        right. intros rest. rewrite <- !app_assoc.
        eapply rf_value2; [exact W|apply string_rfc_code; exact T|apply T'].
      * right. intros rest. rewrite <- !app_assoc. eapply rf_name; [exact W|apply T].
    + right. intros rest. rewrite <- !app_assoc. eapply rf_name_index. constructor. apply W.
  - destruct (wire_or_long L 5 1 bs _ p5 H) as [W|W]; [left; constructor; exact W|].
    right. intros rest. apply rf_size. constructor. apply W.
Qed.

(* ------------------------------------------------------------------ *)
(* The block: split at the first representation with a longer integer. *)
Lemma block_split L limit prs : forall d d' hs, wires L rfc_padding prs ->
  interp_all limit d (reprs prs) = Some (d', hs) ->
  wires 5 rfc_padding prs \/
  exists prs1 b r prs2 d1 hs1, prs = prs1 ++ (b, r) :: prs2 /\ wires 5 rfc_padding prs1 /\
    interp_all limit d (reprs prs1) = Some (d1, hs1) /\
    (exists d2 h2, interp limit d1 r = inl (d2, h2)) /\
    forall rest, repr_fault (entries d1) (b ++ rest) Long.
Proof.
  induction prs as [|[b r] prs IH]; intros d d' hs Hw Hi; [left; constructor|].
  inversion Hw as [|? ? H1 H2]; subst. cbn [fst snd] in H1.
  cbn [reprs map snd interp_all] in Hi.
  destruct (interp limit d r) as [[d1 h1]|e] eqn:E; [|discriminate Hi].
  destruct (repr_or_long L limit d b r d1 h1 H1 E) as [W|W].
  - fold (reprs prs) in Hi. destruct (interp_all limit d1 (reprs prs)) as [[d2 h2]|] eqn:E2; [|discriminate Hi].
    destruct (IH d1 d2 h2 H2 E2) as [Wp|(prs1 & b' & r' & prs2 & dx & hx & -> & Wp & Ip & Ir & Fl)].
    + left. constructor; assumption.
    + right. exists ((b, r) :: prs1), b', r', prs2, dx, (h1 ++ hx).
      split; [reflexivity|]. split; [constructor; assumption|]. split; [|split; assumption].
      cbn [reprs map snd interp_all]. rewrite E. fold (reprs prs1). now rewrite Ip.
  - right. exists [], b, r, prs, d, []. split; [reflexivity|]. split; [constructor|]. split; [reflexivity|].
    split; [eauto|exact W].
Qed.

Lemma wires_rfc_code prs : wires 5 rfc_padding prs -> wires 5 code_padding prs.
Proof. intros H. eapply Forall_impl; [|exact H]. intros [b r]. apply repr_rfc_code. Qed.

(* A representation that fits five octets is not faulty. *)
Lemma fault_not_short (m : mode) d b r d1 h1 : wf (dtable d) -> bytes b ->
  interp (dlimit d) (abs (dtable d)) r = inl (d1, h1) ->
  (forall rest, repr_fault (entries (abs (dtable d))) (b ++ rest) Long) -> ~ repr_wire 5 code_padding b r.
Proof.
  intros Hw Hb Hi Hf H.
  pose proof (hdecode_ok m d [(b, r)] [] d1 h1 Done [] Hw) as H1.
  unfold wire_octets in H1. cbn [map concat fst] in H1. rewrite !app_nil_r in H1.
  cbn [reprs map snd interp_all] in H1. rewrite Hi, app_nil_r in H1.
  assert (W : wires 5 code_padding [(b, r)]) by (constructor; [exact H|constructor]).
  specialize (H1 Hb W eq_refl (ends_done _ _)).
  specialize (Hf []). rewrite app_nil_r in Hf.
  rewrite (hdecode_stop m d b (Fault Long) [] Hw Hb (ends_fault _ _ _ _ Hf)) in H1. discriminate H1.
Qed.

Theorem any_rfc_block L m d prs d' hs dst : wf (dtable d) -> bytes (wire_octets prs) ->
  wires L rfc_padding prs -> interp_all (dlimit d) (abs (dtable d)) (reprs prs) = Some (d', hs) ->
  (wires 5 rfc_padding prs /\ exists n,
     hdecode m d (wire_octets prs) dst = ((set_table d (conc d'), [], dst ++ hs), Ok n)) \/
  (exists prs1 b r prs2 d1 hs1, prs = prs1 ++ (b, r) :: prs2 /\ wires 5 rfc_padding prs1 /\
     ~ repr_wire 5 rfc_padding b r /\
     interp_all (dlimit d) (abs (dtable d)) (reprs prs1) = Some (d1, hs1) /\
     hdecode m d (wire_octets prs) dst =
       ((set_table d (conc d1), wire_octets ((b, r) :: prs2), dst ++ hs1), Err DIntegerOverflow)).
Proof.
  intros Hw Hb Hp Hi.
  destruct (block_split L (dlimit d) prs _ _ _ Hp Hi) as [W|(prs1 & b & r & prs2 & d1 & h1 & E & W & I & (d2 & h2 & Ir) & Fl)].
  - left. split; [exact W|]. exists (counted prs).
    pose proof (hdecode_ok m d prs [] d' hs Done dst Hw) as H. rewrite app_nil_r in H.
    apply H; auto using wires_rfc_code. constructor.
  - right. exists prs1, b, r, prs2, d1, h1. split; [exact E|]. split; [exact W|].
    assert (Eo : wire_octets prs = wire_octets prs1 ++ b ++ wire_octets prs2).
    { rewrite E. unfold wire_octets. rewrite map_app, concat_app. reflexivity. }
    rewrite Eo in Hb |- *.
    assert (Bb : bytes b). { apply bytes_app in Hb. destruct Hb as [_ Hb]. apply bytes_app in Hb. tauto. }
    assert (W1 : wfd d1). { eapply interp_all_wf; [|apply wires_rfc_code; exact W|exact I]. unfold wfd. now rewrite conc_abs. }
    split; [|split; [exact I|]].
    + intros H. apply repr_rfc_code in H. revert H.
      apply (fault_not_short m (set_table d (conc d1)) b r d2 h2); cbn [dtable dlimit set_table]; rewrite ?abs_conc; auto.
    + rewrite (hdecode_ok m d prs1 (b ++ wire_octets prs2) d1 h1 (Fault Long) dst Hw Hb (wires_rfc_code _ W) I
                 (ends_fault _ _ _ _ (Fl _))).
      reflexivity.
Qed.

(* Shortest integers of ordinary size have at most five octets. *)
Lemma shortest_five L p f bs v : prefix_ok p -> f < 256 -> v < 2 ^ p - 1 + 2 ^ 28 ->
  int_wire L p (f / 2 ^ p) bs v ->
  (forall lim bs', int_wire lim p (f / 2 ^ p) bs' v -> (length bs <= length bs')%nat) ->
  int_wire 5 p (f / 2 ^ p) bs v.
Proof.
  intros Hp Hf Hv H Hs.
  assert (H32 : v < 2 ^ 32).
  { assert (2 ^ p <= 2 ^ 8) by (apply N.pow_le_mono_r; unfold prefix_ok in Hp; lia).
    change (2 ^ 8) with 256 in *. change (2 ^ 28) with 268435456 in *. change (2 ^ 32) with 4294967296. lia. }
  destruct (encode_integer_ok v f p [] Hp Hf H32) as (b0 & _ & W & Hl & _).
  eapply int_wire_le; [exact H|]. specialize (Hs 6%nat b0 W). specialize (Hl Hv). lia.
Qed.
