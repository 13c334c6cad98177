(* Names and values are opaque (C118). *)
From Verif Require Import Base HuffTables HuffModel HuffSpec Leb HpackStatic HpackModel
  HpackSpec HpackApi HpackInt HpackStr HpackTab HpackDec HpackEnc HpackDerived HpackMore HpackLength.
Open Scope list_scope.
Open Scope N_scope.

(* ------------------------------------------------------------------ *)
(* Specification vocabulary. *)
Section Opaque.
(* Which string may stand for which. *)
Context (R : list N -> list N -> Prop).

Definition line_like (e e' : field_line) : Prop := R (fst e) (fst e') /\ R (snd e) (snd e').
(* A string stands only for strings of its length; the static table stays as it is. *)
Definition stands_for : Prop :=
  (forall s s', R s s' -> List.length s = List.length s') /\ Forall (fun e => line_like e e) rfc_static.

Definition name_like (n n' : name_ref) : Prop :=
  match n, n' with
  | NameIndex i, NameIndex i' => i = i'
  | NameLiteral _ s, NameLiteral _ s' => R s s'
  | _, _ => False
  end.
(* The same representation, up to Huffman coding, with other strings in it. *)
Definition repr_like (r r' : repr) : Prop :=
  match r, r' with
  | RIndexed i, RIndexed i' => i = i'
  | RLiteral k n _ v, RLiteral k' n' _ v' => k = k' /\ name_like n n' /\ R v v'
  | RSize n, RSize n' => n = n'
  | _, _ => False
  end.
Definition header_like (h h' : out_header) : Prop :=
  let '(n, v, fl) := h in let '(n', v', fl') := h' in R n n' /\ R v v' /\ fl = fl'.
(* Tables of the same size and maximum with other strings in the entries. *)
Definition table_like (t t' : table) : Prop :=
  Forall2 line_like (inner t) (inner t') /\ dsize t = dsize t' /\ dmax t = dmax t'.

(* ------------------------------------------------------------------ *)
Definition dyn_like (d d' : dyn) : Prop := Forall2 line_like (entries d) (entries d') /\ max_size d = max_size d'.
Context (HR : stands_for).

Lemma line_like_size e e' : line_like e e' -> line_size e = line_size e'.
Proof. destruct HR as [L _]. intros [H1 H2]. unfold line_size. now rewrite (L _ _ H1), (L _ _ H2). Qed.
Lemma like_size l l' : Forall2 line_like l l' -> size l = size l'.
Proof. induction 1 as [|e e' l l' H _ IH]; [reflexivity|]. cbn [size]. now rewrite (line_like_size _ _ H), IH. Qed.
Lemma like_fit l l' : Forall2 line_like l l' -> forall max, Forall2 line_like (fit max l) (fit max l').
Proof.
  induction 1 as [|e e' l l' H _ IH]; intros max; [constructor|]. cbn [fit]. rewrite <- (line_like_size _ _ H).
  destruct (line_size e <=? max); constructor; auto.
Qed.
Lemma Forall2_nth {A} (P : A -> A -> Prop) l l' i : Forall2 P l l' ->
  match nth_error l i, nth_error l' i with
  | Some a, Some b => P a b | None, None => True | _, _ => False end.
Proof. intros H. revert i. induction H as [|a b l l' Hab _ IH]; intros [|i]; cbn; auto. apply IH. Qed.
Lemma Forall2_self {A} (P : A -> A -> Prop) l : Forall (fun a => P a a) l -> Forall2 P l l.
Proof. induction 1; constructor; auto. Qed.
Lemma like_lookup l l' i : Forall2 line_like l l' ->
  match lookup l i, lookup l' i with
  | Some e, Some e' => line_like e e' | None, None => True | _, _ => False end.
Proof.
  intros H. unfold lookup. destruct (i =? 0); [exact Logic.I|]. apply Forall2_nth. apply Forall2_app; [|exact H].
  apply Forall2_self. apply HR.
Qed.
Lemma like_insert d d' e e' : dyn_like d d' -> line_like e e' -> dyn_like (insert d e) (insert d' e').
Proof. intros [H M] He. unfold insert, dyn_like. cbn [entries max_size]. rewrite M. split; [|reflexivity]. apply like_fit. now constructor. Qed.
Lemma like_resize d d' n : dyn_like d d' -> dyn_like (resize d n) (resize d' n).
Proof. intros [H M]. unfold resize, dyn_like. cbn [entries max_size]. split; [|reflexivity]. now apply like_fit. Qed.
Lemma like_resolve d d' n n' : dyn_like d d' -> name_like n n' ->
  match resolve d n, resolve d' n' with
  | Some s, Some s' => R s s' | None, None => True | _, _ => False end.
Proof.
  intros [H _] Hn. destruct n as [i|h s], n' as [i'|h' s']; cbn [name_like] in Hn; try contradiction; [subst i'|exact Hn].
  cbn [resolve]. pose proof (like_lookup _ _ i H) as L. destruct (lookup (entries d) i), (lookup (entries d') i); cbn [option_map]; auto. apply L.
Qed.
Lemma like_interp limit d d' r r' : dyn_like d d' -> repr_like r r' ->
  match interp limit d r, interp limit d' r' with
  | inl (a, h), inl (a', h') => dyn_like a a' /\ Forall2 header_like h h'
  | inr e, inr e' => e = e'
  | _, _ => False
  end.
Proof.
  intros Hd Hr. destruct r as [i|k n h v|n], r' as [i'|k' n' h' v'|n']; cbn [repr_like] in Hr; try contradiction; cbn [interp].
  - subst i'. pose proof (like_lookup _ _ i (proj1 Hd)) as L.
    destruct (lookup (entries d) i) as [[a b]|], (lookup (entries d') i) as [[a' b']|]; try contradiction; [|reflexivity].
    split; [exact Hd|]. constructor; [|constructor]. destruct L as [L1 L2]. now repeat split.
  - destruct Hr as (<- & Hn & Hv). pose proof (like_resolve d d' n n' Hd Hn) as L.
    destruct (resolve d n) as [s|], (resolve d' n') as [s'|]; try contradiction; [|reflexivity]. split.
    + destruct k; auto. apply like_insert; [exact Hd|]. split; assumption.
    + constructor; [|constructor]. now repeat split.
  - subst n'. destruct (n <=? limit); [|reflexivity]. split; [now apply like_resize|constructor].
Qed.
Definition both_like (p p' : list N * repr) : Prop := repr_like (snd p) (snd p').
Lemma like_interp_all limit prs prs' : Forall2 both_like prs prs' -> forall d d' a h, dyn_like d d' ->
  interp_all limit d (reprs prs) = Some (a, h) ->
  exists a' h', interp_all limit d' (reprs prs') = Some (a', h') /\ dyn_like a a' /\ Forall2 header_like h h'.
Proof.
  induction 1 as [|[b r] [b' r'] prs prs' Hr _ IH]; intros d d' a h Hd E.
  - cbn in E. injection E as <- <-. exists d', []. split; [reflexivity|]. split; [exact Hd|constructor].
  - unfold both_like in Hr. cbn [snd] in Hr. cbn [reprs map snd interp_all] in *. fold (reprs prs) in *. fold (reprs prs') in *.
    pose proof (like_interp limit d d' r r' Hd Hr) as L.
    destruct (interp limit d r) as [[a1 h1]|]; [|discriminate]. destruct (interp limit d' r') as [[a1' h1']|]; [|contradiction].
    destruct L as [L1 L2]. destruct (interp_all limit a1 (reprs prs)) as [[a2 h2]|] eqn:E2; [|discriminate]. injection E as <- <-.
    destruct (IH a1 a1' a2 h2 L1 E2) as (a' & h' & -> & L3 & L4). exists a', (h1' ++ h'). split; [reflexivity|]. split; [exact L3|now apply Forall2_app].
Qed.

(* Ends of blocks.  Names that cannot be looked up cannot be looked up in the other table. *)
Lemma like_none l l' i : Forall2 line_like l l' -> lookup l i = None -> lookup l' i = None.
Proof. intros H E. pose proof (like_lookup l l' i H) as L. rewrite E in L. destruct (lookup l' i); [contradiction|reflexivity]. Qed.
Lemma like_some l l' i e : Forall2 line_like l l' -> lookup l i = Some e -> exists e', lookup l' i = Some e'.
Proof. intros H E. pose proof (like_lookup l l' i H) as L. rewrite E in L. destruct (lookup l' i); [eauto|contradiction]. Qed.
Lemma like_ends limit d d' rest s : dyn_like d d' -> ends limit d rest s -> ends limit d' rest s.
Proof.
  intros Hd He. destruct He as [|rest f Hf|b r rest e Hr Hi]; [apply ends_done| |].
  - apply ends_fault. destruct Hd as [H _]. destruct Hf as [bs f Hf|bs f Hf|k bs f Hf|k bi i rest Hf Hi Hn|k bi i e rest f Hf Hi He Hs|k bi rest f Hf Hs|k bi hn bn n rest f Hf Hn Hs].
    + now apply rf_indexed.
    + now apply rf_size.
    + eapply rf_name_index; eassumption.
    + eapply rf_bad_name; [eassumption|assumption|]. eapply like_none; eassumption.
    + match goal with E : lookup _ _ = Some _ |- _ => destruct (like_some _ _ _ _ H E) as [e' E'] end.
      eapply rf_value1; eassumption.
    + eapply rf_name; eassumption.
    + eapply rf_value2; eassumption.
  - apply (ends_refused limit d' b r rest e Hr).
    assert (L : forall i, lookup (entries d) i = None -> lookup (entries d') i = None) by (intros i; apply like_none, Hd).
    destruct r as [i|k n h v|n]; cbn [interp] in *.
    + destruct (lookup (entries d) i) as [[? ?]|] eqn:E; [discriminate|]. now rewrite (L i E).
    + destruct n as [i|h' s]; cbn [resolve] in *; [|destruct k; discriminate].
      destruct (lookup (entries d) i) as [[? ?]|] eqn:E; cbn [option_map] in *; [destruct k; discriminate|]. now rewrite (L i E).
    + destruct (n <=? limit); [discriminate|exact Hi].
Qed.

Lemma like_abs t t' : table_like t t' -> dyn_like (abs t) (abs t').
Proof. intros (H & _ & M). split; assumption. Qed.
Lemma like_conc d d' : dyn_like d d' -> table_like (conc d) (conc d').
Proof. intros [H M]. unfold table_like. cbn [conc inner dsize dmax]. split; [exact H|]. split; [now apply like_size|exact M]. Qed.

Lemma like_wf t t' : table_like t t' -> wf t -> wf t'.
Proof. intros (H & Hs & M) (W1 & W2 & W3). unfold wf. rewrite <- Hs, <- M, <- (like_size _ _ H). auto. Qed.

Lemma header_like_octets hs hs' : Forall2 header_like hs hs' -> List.length hs = List.length hs'.
Proof. induction 1; cbn; congruence. Qed.
Definition outcome_like (o o' : outcome dec_error N) : Prop :=
  match o, o' with Ok _, Ok _ => True | _, _ => o = o' end.
Lemma counted_like prs prs' : Forall2 both_like prs prs' ->
  Forall2 (fun p p' => List.length (fst p) = List.length (fst p')) prs prs' -> counted prs = counted prs'.
Proof.
  induction 1 as [|[b r] [b' r'] prs prs' H _ IH]; intros L; [reflexivity|]. inversion L as [|? ? ? ? L1 L2]; subst.
  unfold both_like in H. cbn [fst snd] in *. unfold counted in *. cbn [fold_right fst snd]. rewrite (IH L2), L1.
  assert (is_size r = is_size r') as -> by (destruct r, r'; cbn in H; try contradiction; reflexivity). reflexivity.
Qed.

Theorem decode_like m m' d d' buf dst dst' : wf (dtable d) -> dlimit d = dlimit d' ->
  table_like (dtable d) (dtable d') -> bytes buf ->
  exists prs rest d1 hs o, buf = wire_octets prs ++ rest /\ wires 5 code_padding prs /\
    hdecode m d buf dst = ((d1, rest, dst ++ hs), o) /\ dlimit d1 = dlimit d /\ dspeed d1 = dspeed d /\
    forall prs', wires 5 code_padding prs' -> bytes (wire_octets prs') -> Forall2 both_like prs prs' ->
      exists d1' hs' o', hdecode m' d' (wire_octets prs' ++ rest) dst' = ((d1', rest, dst' ++ hs'), o') /\
        Forall2 header_like hs hs' /\ table_like (dtable d1) (dtable d1') /\
        dlimit d1' = dlimit d' /\ dspeed d1' = dspeed d' /\ outcome_like o o' /\
        (Forall2 (fun p p' => List.length (fst p) = List.length (fst p')) prs prs' -> o = o').
Proof.
  intros Hw Hl Ht Hb. destruct (hdecode_total m d buf dst Hw Hb) as (prs & rest & a & hs & s & Eb & Hp & Hi & He & _ & ED).
  exists prs, rest, (set_table d (conc a)), hs, (stop_outcome s (counted prs)). split; [exact Eb|]. split; [exact Hp|]. split; [exact ED|]. split; [reflexivity|]. split; [reflexivity|].
  intros prs' Hp' Hb' H2. destruct (like_interp_all (dlimit d) prs prs' H2 _ _ a hs (like_abs _ _ Ht) Hi) as (a' & hs' & Hi' & La & Lh).
  pose proof (like_ends _ _ _ _ _ La He) as He'. rewrite Hl in Hi', He'.
  assert (B : bytes (wire_octets prs' ++ rest)).
  { rewrite Eb in Hb. apply bytes_app in Hb as [_ B]. apply bytes_app. now split. }
  exists (set_table d' (conc a')), hs', (stop_outcome s (counted prs')).
  split; [exact (hdecode_ok m' d' prs' rest a' hs' s dst' (like_wf _ _ Ht Hw) B Hp' Hi' He')|].
  split; [exact Lh|]. split; [exact (like_conc _ _ La)|]. split; [reflexivity|]. split; [reflexivity|]. split.
  - destruct s; [exact Logic.I| |reflexivity]. destruct f; reflexivity.
  - intros L. now rewrite (counted_like _ _ H2 L).
Qed.

(* ------------------------------------------------------------------ *)
(* The encoder. *)
(* Equal strings stand for equal strings, different ones for different ones. *)
Definition one_to_one : Prop := forall s1 s1' s2 s2', R s1 s1' -> R s2 s2' -> (s1 = s2 <-> s1' = s2').
(* The same call with other strings, none of them to be Huffman coded. *)
Definition op_like (o o' : op) : Prop :=
  match o, o' with
  | Send (Indexed i), Send (Indexed i') => i = i'
  | Send (IndexedName i v fl), Send (IndexedName i' v' fl') => i = i' /\ R v v' /\ fl = fl' /\ N.testbit fl 1 = false
  | Send (Literal n v fl), Send (Literal n' v' fl') =>
      R n n' /\ R v v' /\ fl = fl' /\ N.testbit fl 0 = false /\ N.testbit fl 1 = false
  | Resize n, Resize n' => n = n'
  | _, _ => False
  end.
Definition unsearched (o : op) : Prop :=
  match o with Send (Literal _ _ fl) => N.testbit fl 4 = false | _ => True end.

Lemma like_found l l' n n' v v' r : one_to_one -> Forall2 line_like l l' -> R n n' -> R v v' ->
  find_spec (lookup l) n v r -> find_spec (lookup l') n' v' r.
Proof.
  intros O H Hn Hv.
  assert (F : forall i w, lookup l i = Some (n, w) -> exists w', lookup l' i = Some (n', w') /\ R w w').
  { intros i w E. pose proof (like_lookup l l' i H) as L. rewrite E in L. destruct (lookup l' i) as [[a b]|]; [|contradiction].
    destruct L as [L1 L2]. cbn [fst snd] in *. exists b. split; [|exact L2]. now rewrite (proj1 (O _ _ _ _ L1 Hn) eq_refl). }
  assert (B : forall i w', lookup l' i = Some (n', w') -> exists w, lookup l i = Some (n, w) /\ R w w').
  { intros i w E. pose proof (like_lookup l l' i H) as L. rewrite E in L. destruct (lookup l i) as [[a b]|]; [|contradiction].
    destruct L as [L1 L2]. cbn [fst snd] in *. exists b. split; [|exact L2]. now rewrite (proj2 (O _ _ _ _ L1 Hn) eq_refl). }
  assert (FV : forall i, lookup l i = Some (n, v) -> lookup l' i = Some (n', v')).
  { intros i E. destruct (F i v E) as (w & E' & L). now rewrite <- (proj1 (O _ _ _ _ L Hv) eq_refl). }
  assert (BV : forall i, lookup l' i = Some (n', v') -> lookup l i = Some (n, v)).
  { intros i E. destruct (B i v' E) as (w & E' & L). now rewrite <- (proj2 (O _ _ _ _ L Hv) eq_refl). }
  destruct r as [[i []]|]; cbn [find_spec].
  - intros [E M]. split; [now apply FV|]. intros j Hj E'. apply (M j Hj). now apply BV.
  - intros ((w & E) & M1 & M2). destruct (F i w E) as (w' & E' & _). split; [now exists w'|]. split.
    + intros j u Hj Eu. destruct (B j u Eu) as (x & Ex & _). now apply (M1 j x Hj).
    + intros j Ej. apply (M2 j). now apply BV.
  - intros M j u Eu. destruct (B j u Eu) as (x & Ex & _). now apply (M j x).
Qed.

Lemma like_octets s s' : R s s' -> string_octets false s = string_octets false s'.
Proof. intros H. destruct HR as [L _]. unfold string_octets, coded_length. now rewrite (L _ _ H). Qed.

Lemma like_chosen l l' f f' r : one_to_one \/ unsearched (Send f) -> Forall2 line_like l l' -> op_like (Send f) (Send f') ->
  chosen l f r -> exists r', chosen l' f' r' /\ repr_like r r' /\ repr_octets r = repr_octets r'.
Proof.
  intros O H Hf Hc. destruct Hc as [i e He|i v fl e He|n v fl Hb|n v fl found Hb Hfind]; destruct f' as [i'|i' v' fl'|n' v' fl'];
    cbn [op_like] in Hf; try contradiction.
  - subst i'. destruct (like_some _ _ _ _ H He) as [e' E]. exists (RIndexed i). split; [now apply ch_indexed with e'|]. now split.
  - destruct Hf as (<- & Hv & <- & Hh). destruct (like_some _ _ _ _ H He) as [e' E]. eexists. split; [now apply ch_indexed_name with e'|].
    split; [now cbn|]. cbn [repr_octets]. rewrite Hh. now rewrite (like_octets _ _ Hv).
  - destruct Hf as (Hn & Hv & <- & H0 & H1). eexists. split; [now apply ch_literal|]. split; [now cbn|].
    cbn [repr_octets]. rewrite H0, H1. now rewrite (like_octets _ _ Hv), (like_octets _ _ Hn).
  - destruct Hf as (Hn & Hv & <- & H0 & H1). destruct O as [O|O]; [|cbn in O; congruence].
    pose proof (like_found _ _ _ _ _ _ _ O H Hn Hv Hfind) as Hfind'. eexists. split; [now apply ch_best with (found := found)|].
    destruct found as [[i []]|]; (split; [now cbn|]); cbn [repr_octets]; rewrite ?H0, ?H1;
      now rewrite ?(like_octets _ _ Hv), ?(like_octets _ _ Hn).
Qed.
Lemma like_field l l' f f' : Forall2 line_like l l' -> op_like (Send f) (Send f') -> field_of l f = None -> field_of l' f' = None.
Proof.
  intros H Hf. destruct f as [i|i v fl|n v fl], f' as [i'|i' v' fl'|n' v' fl']; cbn [op_like field_of] in *; try contradiction; try discriminate.
  - subst i'. now apply like_none.
  - destruct Hf as (<- & _). intros E. rewrite (like_none l l' i H); [reflexivity|]. destruct (lookup l i); [discriminate|reflexivity].
Qed.

Lemma within_big r : strings_within MAX_STRING r -> strings_within U32_MAX r.
Proof. apply within_mono. vm_compute. discriminate. Qed.

Lemma like_step m m' limit t t' dst dst' o o' : wf t -> table_like t t' -> limit < 2 ^ 32 ->
  op_ok limit o -> op_ok limit o' -> op_like o o' -> one_to_one \/ unsearched o ->
  exists t1 t1' b b' r, op_step m t dst o = ((t1, dst ++ b), r) /\ op_step m' t' dst' o' = ((t1', dst' ++ b'), r) /\
    List.length b = List.length b' /\ table_like t1 t1' /\ wf t1.
Proof.
  intros Hw Ht Hlim Ho Ho' Hl O. pose proof (like_wf _ _ Ht Hw) as Hw'. destruct o as [f|n].
  - destruct o' as [f'|n']; [|destruct f; contradiction]. destruct Ho as [Hi Hs], Ho' as [Hi' Hs']. cbn [op_step].
    destruct (hencode_cases m t f dst Hw Hi) as [[E1 E2]|(r & Hr & _)].
    + assert (E1' : field_of (inner t') f' = None) by (eapply like_field; [apply Ht|exact Hl|exact E1]).
      destruct (hencode_cases m' t' f' dst' Hw' Hi') as [[_ E2']|(r & Hr & _)].
      * exists t, t', [], [], (Err EInvalidIndex). rewrite !app_nil_r. auto.
      * exfalso. assert (Q : field_of (inner t') f' <> None) by (apply chosen_iff; eauto). contradiction.
    + destruct (like_chosen _ _ _ _ _ O (proj1 Ht) Hl Hr) as (r' & Hr' & Lr & Lo).
      pose proof (within_big _ (sendable_within _ _ _ Hr Hs)) as Sw. pose proof (within_big _ (sendable_within _ _ _ Hr' Hs')) as Sw'.
      destruct (hencode_ok m t f dst r Hw Hi Hr Sw) as (b & a & h & E & Hint & W1 & _).
      destruct (hencode_ok m' t' f' dst' r' Hw' Hi' Hr' Sw') as (b' & a' & h' & E' & Hint' & W1' & _).
      pose proof (like_interp 0 (abs t) (abs t') r r' (like_abs _ _ Ht) Lr) as L. rewrite Hint, Hint' in L. destruct L as [L _].
      exists (conc a), (conc a'), b, b', (Ok tt). split; [exact E|]. split; [exact E'|]. split; [|split; [exact (like_conc _ _ L)|exact W1]].
      pose proof (hencode_octets m t f dst r b _ Hw Hi Hr Sw E) as Q. pose proof (hencode_octets m' t' f' dst' r' b' _ Hw' Hi' Hr' Sw' E') as Q'. lia.
  - destruct o' as [f'|n']; [contradiction|]. cbn [op_like] in Hl. subst n'. cbn [op_step op_ok] in *.
    assert (Hn : n < 2 ^ 32) by lia.
    destruct (encoder_update_ok m t n dst Hw Hn) as (b & E & _ & _ & _ & W1). destruct (encoder_update_ok m' t' n dst' Hw' Hn) as (b' & E' & _ & _ & _ & _).
    exists (conc (resize (abs t) n)), (conc (resize (abs t') n)), b, b', (Ok tt). split; [exact E|]. split; [exact E'|].
    split; [|split; [apply like_conc, like_resize, like_abs, Ht|exact W1]].
    destruct (update_octets m t n dst _ _ _ Hw Hn E) as (c & _ & Ec & Lc & _). destruct (update_octets m' t' n dst' _ _ _ Hw' Hn E') as (c' & _ & Ec' & Lc' & _).
    apply app_inv_head in Ec, Ec'. subst c c'. lia.
Qed.

Theorem encode_like m m' limit ops ops' : Forall2 op_like ops ops' ->
  one_to_one \/ Forall unsearched ops -> limit < 2 ^ 32 -> Forall (op_ok limit) ops -> Forall (op_ok limit) ops' ->
  forall t t' dst dst', wf t -> table_like t t' ->
  exists t1 t1' out out' rs, run_ops m t dst ops = (t1, dst ++ out, rs) /\ run_ops m' t' dst' ops' = (t1', dst' ++ out', rs) /\
    List.length out = List.length out' /\ table_like t1 t1'.
Proof.
  intros H O Hlim. revert O. induction H as [|o o' ops ops' Ho _ IH]; intros O F F' t t' dst dst' Hw Ht.
  - exists t, t', [], [], []. cbn. rewrite !app_nil_r. auto.
  - inversion F as [|? ? F1 F2]; inversion F' as [|? ? F1' F2']; subst. rewrite !run_ops_cons.
    destruct (like_step m m' limit t t' dst dst' o o' Hw Ht Hlim F1 F1' Ho) as (t1 & t1' & b & b' & r & -> & -> & L & Ht1 & Hw1).
    { destruct O as [O|O]; [now left|right]. now inversion O. }
    destruct (IH ltac:(destruct O as [O|O]; [now left|right; now inversion O]) F2 F2' t1 t1' (dst ++ b) (dst' ++ b') Hw1 Ht1)
      as (t2 & t2' & out & out' & rs & -> & -> & L2 & Ht2).
    exists t2, t2', (b ++ out), (b' ++ out'), (r :: rs). rewrite <- !app_assoc. split; [reflexivity|]. split; [reflexivity|].
    split; [rewrite !app_length; congruence|exact Ht2].
Qed.
End Opaque.

(* ------------------------------------------------------------------ *)
(* Masking: a function on strings, applied to everything that is not in the static table. *)
Section Mask.
Context (f : list N -> list N).
Definition masks : Prop :=
  (forall s, List.length (f s) = List.length s) /\ (forall s, bytes s -> bytes (f s)) /\
  Forall (fun e : field_line => f (fst e) = fst e /\ f (snd e) = snd e) rfc_static.
Definition mask_line (e : field_line) : field_line := (f (fst e), f (snd e)).
Definition mask_header (h : out_header) : out_header := let '(n, v, fl) := h in (f n, f v, fl).
Definition mask_decoder (d : decoder) : decoder :=
  set_table d (mkDyn (map mask_line (inner (dtable d))) (dsize (dtable d)) (dmax (dtable d))).
Definition mask_repr (r : repr) : repr :=
  match r with
  | RLiteral k (NameLiteral h n) hv v => RLiteral k (NameLiteral h (f n)) hv (f v)
  | RLiteral k n hv v => RLiteral k n hv (f v)
  | _ => r
  end.
(* No string of the representation is Huffman coded. *)
Definition plain_repr (r : repr) : Prop :=
  match r with
  | RLiteral _ (NameLiteral h _) hv _ => h = false /\ hv = false
  | RLiteral _ _ hv _ => hv = false
  | _ => True
  end.
Context (HM : masks).

Lemma mask_stands : stands_for (fun a b => b = f a).
Proof.
  destruct HM as (L & _ & S). split.
  - intros s s' ->. now rewrite L.
  - eapply Forall_impl; [|exact S]. cbn. intros e [H1 H2]. split; congruence.
Qed.
Lemma mask_like r : repr_like (fun a b => b = f a) r (mask_repr r).
Proof. destruct r as [i|k [i|h n] hv v|n]; cbn; auto. Qed.
Lemma mask_string_wire bs s : string_wire 5 code_padding false bs s -> bytes bs ->
  exists bs', string_wire 5 code_padding false bs' (f s) /\ List.length bs' = List.length bs /\ bytes bs'.
Proof.
  destruct HM as (L & B & _). intros W Hb. inversion W as [lb s0 Hi|]; subst. apply bytes_app in Hb as [B1 B2].
  exists (lb ++ f s). split; [constructor; now rewrite L|]. split; [rewrite !app_length; now rewrite L|]. apply bytes_app. split; auto.
Qed.
Lemma mask_wire bs r : repr_wire 5 code_padding bs r -> plain_repr r -> bytes bs ->
  exists bs', repr_wire 5 code_padding bs' (mask_repr r) /\ List.length bs' = List.length bs /\ bytes bs'.
Proof.
  intros W P Hb. destruct W as [bs i Hi|k bi i hv bv v Hi Hn Hv|k bi hn bn n hv bv v Hi Hn Hv|bs n Hi].
  - exists bs. split; [now constructor|auto].
  - cbn in P. subst hv. apply bytes_app in Hb as [B1 B2]. destruct (mask_string_wire bv v Hv B2) as (bv' & W' & L' & B').
    exists (bi ++ bv'). split; [now constructor|]. split; [rewrite !app_length; congruence|]. apply bytes_app. now split.
  - cbn in P. destruct P as [-> ->]. apply bytes_app in Hb as [B1 B2]. apply bytes_app in B2 as [B2 B3].
    destruct (mask_string_wire bn n Hn B2) as (bn' & Wn & Ln & Bn). destruct (mask_string_wire bv v Hv B3) as (bv' & Wv & Lv & Bv).
    exists (bi ++ bn' ++ bv'). split; [now constructor|]. split; [rewrite !app_length; congruence|]. apply bytes_app. split; [exact B1|]. apply bytes_app. now split.
  - exists bs. split; [now constructor|auto].
Qed.
Lemma mask_wires prs : wires 5 code_padding prs -> Forall plain_repr (reprs prs) -> bytes (wire_octets prs) ->
  exists prs', wires 5 code_padding prs' /\ bytes (wire_octets prs') /\
    Forall2 (both_like (fun a b => b = f a)) prs prs' /\
    Forall2 (fun p p' => List.length (fst p) = List.length (fst p')) prs prs' /\
    List.length (wire_octets prs') = List.length (wire_octets prs).
Proof.
  induction prs as [|[b r] prs IH]; intros W P Hb.
  - exists []. repeat split; constructor.
  - inversion W as [|? ? W1 W2]; subst. cbn [reprs map snd] in P. inversion P as [|? ? P1 P2]; subst.
    change (wire_octets ((b, r) :: prs)) with (b ++ wire_octets prs) in *. apply bytes_app in Hb as [B1 B2].
    destruct (mask_wire b r W1 P1 B1) as (b' & Wb & Lb & Bb). destruct (IH W2 P2 B2) as (prs' & W' & Bw & H2 & Hl & L).
    exists ((b', mask_repr r) :: prs'). change (wire_octets ((b', mask_repr r) :: prs')) with (b' ++ wire_octets prs').
    split; [now constructor|]. split; [apply bytes_app; now split|]. split; [constructor; [apply mask_like|exact H2]|].
    split; [constructor; [cbn; congruence|exact Hl]|]. rewrite !app_length. congruence.
Qed.
Lemma mask_lines l l' : Forall2 (line_like (fun a b => b = f a)) l l' -> l' = map mask_line l.
Proof. induction 1 as [|[n v] [n' v'] l l' [H1 H2] _ IH]; [reflexivity|]. cbn in *. unfold mask_line at 1. cbn. congruence. Qed.
Lemma mask_headers l l' : Forall2 (header_like (fun a b => b = f a)) l l' -> l' = map mask_header l.
Proof. induction 1 as [|[[n v] fl] [[n' v'] fl'] l l' (H1 & H2 & H3) _ IH]; [reflexivity|]. cbn in *. congruence. Qed.
Lemma lines_mask l : Forall2 (line_like (fun a b => b = f a)) l (map mask_line l).
Proof. induction l as [|[n v] l IH]; constructor; [now split|exact IH]. Qed.

Theorem mask_block m m' d buf dst dst' : wf (dtable d) -> bytes buf ->
  exists prs rest d1 hs o, buf = wire_octets prs ++ rest /\ wires 5 code_padding prs /\
    hdecode m d buf dst = ((d1, rest, dst ++ hs), o) /\
    (Forall plain_repr (reprs prs) ->
     exists masked, List.length masked = List.length (wire_octets prs) /\
       hdecode m' (mask_decoder d) (masked ++ rest) dst' =
         ((mask_decoder d1, rest, dst' ++ map mask_header hs), o)).
Proof.
  intros Hw Hb. destruct (decode_like _ mask_stands m m' d (mask_decoder d) buf dst dst' Hw eq_refl) as
    (prs & rest & d1 & hs & o & E & W & ED & El & Es & H); [|exact Hb|].
  { split; [apply lines_mask|now split]. }
  exists prs, rest, d1, hs, o. split; [exact E|]. split; [exact W|]. split; [exact ED|]. intros P.
  assert (B : bytes (wire_octets prs)) by (rewrite E in Hb; now apply bytes_app in Hb as [B _]).
  destruct (mask_wires prs W P B) as (prs' & W' & B' & H2 & Hl & L).
  destruct (H prs' W' B' H2) as (d1' & hs' & o' & E' & Hh & (T1 & T2 & T3) & D1 & D2 & _ & Ho).
  exists (wire_octets prs'). split; [exact L|]. rewrite E', <- (Ho Hl), (mask_headers _ _ Hh).
  assert (d1' = mask_decoder d1) as ->; [|reflexivity].
  destruct d1' as [sp li [i1 i2 i3]], d1 as [sp0 li0 [j1 j2 j3]]. cbn in *. rewrite (mask_lines _ _ T1).
  unfold mask_decoder, set_table. cbn. congruence.
Qed.
End Mask.
