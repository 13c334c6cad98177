(* What the flags of decoded headers say, and where decoded headers come from (C90). *)
From Verif Require Import Base HuffTables HuffModel HuffSpec HuffCode Leb HpackStatic HpackModel
  HpackSpec HpackApi HpackInt HpackStr HpackTab HpackDec HpackEnc HpackDerived HpackMore HpackRetain.
Open Scope list_scope.
Open Scope N_scope.

(* ------------------------------------------------------------------ *)
(* Specification vocabulary. *)

(* The string s is spelled out somewhere in the octets used, as an HPACK string literal. *)
Definition spelled (used : list N) (s : list N) : Prop :=
  exists huffman a b c, used = a ++ b ++ c /\ string_wire 5 code_padding huffman b s.
(* Some entry of the static table or of the list l has the name n. *)
Definition known_name (l : list field_line) (n : list N) : Prop := exists v, In (n, v) (rfc_static ++ l).

(* A decoded header is an entry of a table, without flags; or its value is in the input and
   its name in the input or in a table, with the flags of a literal. *)
Definition comes_from (used : list N) (l : list field_line) (h : out_header) : Prop :=
  let '(n, v, fl) := h in
  (In (n, v) (rfc_static ++ l) /\ fl = 0) \/
  ((spelled used n \/ known_name l n) /\ spelled used v /\ (fl = 0 \/ fl = 4 \/ fl = 8)).

(* ------------------------------------------------------------------ *)
Lemma spelled_more used x y s : spelled used s -> spelled (x ++ used ++ y) s.
Proof.
  intros (h & a & b & c & -> & H). exists h, (x ++ a), b, (c ++ y). split; [|exact H]. now rewrite <- !app_assoc.
Qed.
Lemma comes_from_more used x y l h : comes_from used l h -> comes_from (x ++ used ++ y) l h.
Proof.
  destruct h as [[n v] fl]. intros [H|([H|H] & Hv & Hf)]; [left; exact H| |]; right; (split; [|split; [now apply spelled_more|exact Hf]]).
  - left. now apply spelled_more.
  - right. exact H.
Qed.
Lemma comes_from_table used l l' h : (forall e, In e l -> In e l') -> comes_from used l h -> comes_from used l' h.
Proof.
  intros S. assert (S' : forall e, In e (rfc_static ++ l) -> In e (rfc_static ++ l')).
  { intros e He. apply in_app_iff in He. apply in_app_iff. destruct He; auto. }
  destruct h as [[n v] fl]. intros [[H H']|([H|[u H]] & R)]; [left; auto|right; auto|]. right. split; [right; exists u; auto|exact R].
Qed.
Lemma prefix_in {A} (p l : list A) : prefix p l -> forall e, In e p -> In e l.
Proof. intros (t & ->) e He. apply in_app_iff. auto. Qed.
Lemma prefix_trans' {A} (a b c : list A) : prefix a b -> prefix b c -> prefix a c.
Proof. intros (t & ->) (u & ->). exists (t ++ u). now rewrite <- app_assoc. Qed.
Lemma prefix_app_l {A} (x p l : list A) : prefix p l -> prefix (x ++ p) (x ++ l).
Proof. intros (t & ->). exists t. now rewrite app_assoc. Qed.

Lemma lookup_in l i e : lookup l i = Some e -> In e (rfc_static ++ l).
Proof. unfold lookup. destruct (i =? 0); [discriminate|]. apply nth_error_In. Qed.

Lemma interp_from limit d bs r d' hs : repr_wire 5 code_padding bs r -> interp limit d r = inl (d', hs) ->
  prefix (entries d') (stored hs ++ entries d) /\ Forall (comes_from bs (entries d)) hs /\ (List.length hs <= 1)%nat.
Proof.
  intros Hw E. destruct Hw as [bs i Hi|k bi i hv bv v Hi Hne Hv|k bi hn bn n hv bv v Hi Hn Hv|bs n Hi]; cbn [interp] in E.
  - destruct (lookup (entries d) i) as [[n v]|] eqn:L; [|discriminate]. injection E as <- <-.
    split; [apply prefix_refl|]. split; [|auto]. constructor; [|constructor]. left. split; [now apply lookup_in in L|reflexivity].
  - cbn [resolve] in E. destruct (lookup (entries d) i) as [[n u]|] eqn:L; [|discriminate]. cbn [option_map fst] in E. injection E as <- <-.
    split; [|split; [|auto]].
    + change (n, v, kind_flag k) with ((n, v), kind_flag k). rewrite stored_one.
      destruct k; cbn [kind_flag N.eqb insert entries app]; try apply prefix_refl. apply fit_prefix.
    + constructor; [|constructor]. right. split; [right; exists u; now apply lookup_in in L|].
      split; [|destruct k; cbn; auto]. exists hv, bi, bv, []. split; [now rewrite app_nil_r|exact Hv].
  - cbn [resolve] in E. injection E as <- <-. split; [|split; [|auto]].
    + change (n, v, kind_flag k) with ((n, v), kind_flag k). rewrite stored_one.
      destruct k; cbn [kind_flag N.eqb insert entries app]; try apply prefix_refl. apply fit_prefix.
    + constructor; [|constructor]. right. split; [left; exists hn, bi, bn, bv; auto|].
      split; [|destruct k; cbn; auto]. exists hv, (bi ++ bn), bv, []. split; [now rewrite app_nil_r, app_assoc|exact Hv].
  - destruct (n <=? limit); [|discriminate]. injection E as <- <-. split; [apply fit_prefix|]. split; [constructor|auto].
Qed.

Lemma interp_all_from limit prs : forall d d' hs, wires 5 code_padding prs -> interp_all limit d (reprs prs) = Some (d', hs) ->
  prefix (entries d') (timeline (entries d) hs) /\
  forall j h, nth_error hs j = Some h -> comes_from (wire_octets prs) (timeline (entries d) (firstn j hs)) h.
Proof.
  induction prs as [|[bs r] prs IH]; intros d d' hs Hw E.
  - injection E as <- <-. split; [apply prefix_refl|]. intros [|j] h H; discriminate.
  - inversion Hw as [|? ? Hb Hw']; subst. cbn [reprs map snd fst interp_all] in *.
    destruct (interp limit d r) as [[d1 h1]|] eqn:E1; [|discriminate].
    destruct (interp_all limit d1 (map snd prs)) as [[d2 hs2]|] eqn:E2; [|discriminate]. injection E as <- <-.
    destruct (interp_from limit d bs r d1 h1 Hb E1) as (P1 & F1 & L1).
    destruct (IH d1 d2 hs2 Hw' E2) as [P2 F2].
    assert (T : forall x, prefix (timeline (entries d1) x) (timeline (entries d) (h1 ++ x))).
    { intros x. unfold timeline. rewrite stored_app, <- app_assoc. now apply prefix_app_l. }
    split; [eapply prefix_trans'; [exact P2|apply T]|].
    intros j h Hj. change (wire_octets ((bs, r) :: prs)) with (bs ++ wire_octets prs).
    destruct h1 as [|h0 [|]]; [| |cbn in L1; lia].
    + cbn [app] in *. rewrite <- (app_nil_r (wire_octets prs)). apply comes_from_more.
      eapply comes_from_table; [|apply F2; exact Hj]. apply prefix_in. apply (T (firstn j hs2)).
    + inversion F1 as [|? ? F0 _]; subst. destruct j as [|j]; cbn [nth_error app firstn] in *.
      * injection Hj as <-. apply (comes_from_more bs [] (wire_octets prs)). exact F0.
      * rewrite <- (app_nil_r (wire_octets prs)). apply comes_from_more.
        eapply comes_from_table; [|apply F2; exact Hj]. apply prefix_in. apply (T (firstn j hs2)).
Qed.

Theorem decode_provenance m d buf dst d1 rest dst1 o : wf (dtable d) -> bytes buf ->
  hdecode m d buf dst = ((d1, rest, dst1), o) ->
  exists used hs, buf = used ++ rest /\ dst1 = dst ++ hs /\
    prefix (inner (dtable d1)) (timeline (inner (dtable d)) hs) /\
    forall j h, nth_error hs j = Some h -> comes_from used (timeline (inner (dtable d)) (firstn j hs)) h.
Proof.
  intros Hwf Hb E. destruct (hdecode_total m d buf dst Hwf Hb) as (prs & rest' & d' & hs & s & Eb & Hw & Hi & _ & _ & E').
  rewrite E in E'. injection E' as -> -> -> _.
  destruct (interp_all_from _ _ _ _ _ Hw Hi) as [P F].
  exists (wire_octets prs), hs. split; [exact Eb|]. split; [reflexivity|]. split; [exact P|exact F].
Qed.

Theorem decode_exact_provenance m cap d buf dst d1 rest dst1 o : wf (dtable d) -> bytes buf ->
  hdecode_exact m cap d buf dst = ((d1, rest, dst1), o) ->
  exists used hs, buf = used ++ rest /\ dst1 = dst ++ hs /\
    prefix (inner (dtable d1)) (timeline (inner (dtable d)) hs) /\
    forall j h, nth_error hs j = Some h -> comes_from used (timeline (inner (dtable d)) (firstn j hs)) h.
Proof.
  intros Hwf Hb E. destruct (hdecode_exact_total m cap d buf dst Hwf Hb) as (prs & rest' & d' & hs & s & Eb & Hw & _ & Hi & _ & _ & E').
  rewrite E in E'. injection E' as -> -> -> _.
  destruct (interp_all_from _ _ _ _ _ Hw Hi) as [P F].
  exists (wire_octets prs), hs. split; [exact Eb|]. split; [reflexivity|]. split; [exact P|exact F].
Qed.

(* Without a header flagged 0x4 nothing is added to the table. *)
Theorem unflagged m d buf dst d1 rest hs o : wf (dtable d) -> bytes buf ->
  hdecode m d buf dst = ((d1, rest, dst ++ hs), o) -> Forall (fun h => snd h <> 4) hs ->
  prefix (inner (dtable d1)) (inner (dtable d)).
Proof.
  intros Hwf Hb E H. destruct (decode_provenance m d buf dst _ _ _ _ Hwf Hb E) as (used & hs' & _ & Eh & P & _).
  apply app_inv_head in Eh. subst hs'. unfold timeline, stored in P.
  assert (Z : filter (fun h => snd h =? 4) hs = []).
  { clear - H. induction H as [|h hs Hh _ IH]; [reflexivity|]. cbn [filter]. rewrite (proj2 (N.eqb_neq _ _) Hh). exact IH. }
  rewrite Z in P. exact P.
Qed.
