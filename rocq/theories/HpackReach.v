(* Exactly which states encoders and decoders can get into (C114). *)
From Verif Require Import Base HuffTables HuffModel HuffSpec HuffCode Leb HpackStatic HpackModel
  HpackSpec HpackApi HpackInt HpackStr HpackTab HpackDec HpackEnc HpackDerived HpackMore HpackAlike HpackEncAlike HpackConform.
Open Scope list_scope.
Open Scope N_scope.

(* ------------------------------------------------------------------ *)
(* Specification vocabulary. *)

(* The encoder comes from t0 to t by calls with arguments of the right types. *)
Definition enc_reaches (m : mode) (t0 t : table) : Prop :=
  exists ops, Forall op_typed ops /\ fst (fst (run_ops m t0 [] ops)) = t.
(* The decoder comes from d0 to d by calls of decode, decode_exact and
   set_max_dynamic_size. *)
Definition dec_reaches (m : mode) (d0 d : decoder) : Prop :=
  exists cs, Forall call_ok cs /\ fold_left (do_call m) cs d0 = d.

(* Octets that fit into one string of at most 2^28 + 126 octets on the wire, plain or
   Huffman coded. *)
Definition receivable (s : list N) : Prop := bytes s /\ exists h, coded_length h s <= MAX_STRING.
Definition receivable_line (e : field_line) : Prop := receivable (fst e) /\ receivable (snd e).

(* The states of a decoder created with the table size n. *)
Definition dec_possible (n : N) (d : decoder) : Prop :=
  dspeed d = FiveBits /\ dlimit d < 2 ^ 32 /\ wf (dtable d) /\
  Forall receivable_line (inner (dtable d)) /\
  (dmax (dtable d) = n \/ dmax (dtable d) <= MAX_UPDATE).

(* ------------------------------------------------------------------ *)
(* Filling a table. *)
Definition store (flags : field_line -> N) (e : field_line) : op := Send (Literal (fst e) (snd e) (flags e)).
Definition store_all (flags : field_line -> N) (l : list field_line) : list op := map (store flags) (rev l).

Definition storing (fl : N) : Prop := fl = 4 \/ fl = 5 \/ fl = 6 \/ fl = 7.
Lemma store_meaning flags e d : storing (flags e) ->
  exists h, op_meaning d (store flags e) = (insert d e, h, Ok tt).
Proof.
  intros H. unfold store. cbn [op_meaning field_of flag_used]. destruct e as [n v]. cbn [fst snd] in *.
  assert (T : N.testbit (flags (n, v)) 4 = false /\ kind_of (flags (n, v)) = WithIndexing)
    by (unfold storing in H; destruct H as [H|[H|[H|H]]]; rewrite H; split; reflexivity).
  destruct T as [T1 T2]. rewrite T1, T2. cbn [andb kind_flag]. eexists. reflexivity.
Qed.
Lemma meaning_app ops1 : forall d ops2, fst (fst (meaning d (ops1 ++ ops2))) = fst (fst (meaning (fst (fst (meaning d ops1))) ops2)).
Proof.
  induction ops1 as [|o ops1 IH]; intros d ops2; [reflexivity|]. cbn [List.app]. rewrite !meaning_cons.
  destruct (op_meaning d o) as [[d1 h] r]. specialize (IH d1 ops2).
  destruct (meaning d1 (ops1 ++ ops2)) as [[a b] c]. destruct (meaning d1 ops1) as [[a' b'] c'].
  cbn [fst] in *. exact IH.
Qed.
Lemma store_all_meaning flags M l : Forall (fun e => storing (flags e)) l -> size l <= M ->
  fst (fst (meaning (mkdyn [] M) (store_all flags l))) = mkdyn l M.
Proof.
  induction l as [|e l IH]; intros F Hs; [reflexivity|]. inversion F as [|? ? F1 F2]; subst.
  cbn [size] in Hs. unfold store_all. cbn [rev]. rewrite map_app. cbn [map]. rewrite meaning_app.
  fold (store_all flags l). rewrite IH by (auto; lia). rewrite meaning_cons.
  destruct (store_meaning flags e (mkdyn l M) F1) as [h ->]. cbn [meaning fst].
  unfold insert. cbn [entries max_size]. rewrite fit_all; [reflexivity|]. cbn [size]. exact Hs.
Qed.
Lemma clear_meaning d M ops : fst (fst (meaning d (Resize 0 :: Resize M :: ops))) = fst (fst (meaning (mkdyn [] M) ops)).
Proof.
  cbn [meaning]. assert (E : resize (resize d 0) M = mkdyn [] M).
  { unfold resize. cbn [entries max_size]. f_equal. destruct (entries d) as [|e l]; [reflexivity|]. rewrite (fit_tiny 0) by lia. reflexivity. }
  rewrite E. destruct (meaning (mkdyn [] M) ops) as [[a b] c]. reflexivity.
Qed.

(* ------------------------------------------------------------------ *)
(* Encoders *)
(* The table of an encoder follows the meaning of the calls, overflow or not. *)
Lemma op_step_table m t dst o : wf t -> op_typed o ->
  fst (fst (op_step m t dst o)) = conc (fst (fst (op_meaning (abs t) o))).
Proof.
  intros W T. destruct o as [f|n]; cbn [op_step op_typed] in *.
  - destruct (hencode_cases m t f dst W T) as [[Hn E]|(r & Hr & H)].
    + rewrite E. cbn [op_meaning]. change (entries (abs t)) with (inner t). rewrite Hn. cbn [fst]. now rewrite conc_abs.
    + destruct (chosen_meaning 0 (abs t) f r Hr) as (n & v & Ef & Hint). cbn [op_meaning]. rewrite Ef. cbn [fst].
      destruct H as [[_ (bs & d' & hs & E & Hi & _)]|[_ (d' & hs & junk & E & _ & Hi & _)]];
        rewrite E; specialize (Hi 0); rewrite Hint in Hi; injection Hi as Hd _; cbn [fst]; now rewrite <- Hd.
  - destruct (encoder_update_ok m t n dst W T) as (bs & E & _). rewrite E. reflexivity.
Qed.
Lemma run_ops_table m ops : forall t dst, wf t -> Forall op_typed ops ->
  fst (fst (run_ops m t dst ops)) = conc (fst (fst (meaning (abs t) ops))).
Proof.
  induction ops as [|o ops IH]; intros t dst W T; [cbn; now rewrite conc_abs|].
  inversion T as [|? ? T1 T2]; subst. rewrite run_ops_cons, meaning_cons.
  pose proof (op_step_table m t dst o W T1) as E. pose proof (op_step_wf m t o dst W T1) as W1.
  destruct (op_step m t dst o) as [[t1 dst1] r1]. destruct (op_meaning (abs t) o) as [[d1 h1] q1]. cbn [fst] in E, W1.
  specialize (IH t1 dst1 W1 T2). rewrite E in IH. rewrite abs_conc in IH. rewrite <- E in IH.
  destruct (run_ops m t1 dst1 ops) as [[a b] c]. destruct (meaning d1 ops) as [[a' b'] c']. exact IH.
Qed.

Theorem enc_reaches_iff m t0 t : wf t0 -> Forall octet_line (inner t0) ->
  (enc_reaches m t0 t <-> wf t /\ Forall octet_line (inner t)).
Proof.
  intros W0 O0. split.
  - intros (ops & T & E). pose proof (run_ops_wf m ops t0 [] W0 T) as W. pose proof (run_ops_octets m ops t0 [] W0 T O0) as O.
    rewrite E in O. destruct (run_ops m t0 [] ops) as [[t' out] rs]. cbn [fst] in E. subst t'. split; [apply W|exact O].
  - intros [W O]. exists (Resize 0 :: Resize (dmax t) :: store_all (fun _ => 4) (inner t)).
    assert (T : Forall op_typed (Resize 0 :: Resize (dmax t) :: store_all (fun _ => 4) (inner t))).
    { constructor; [reflexivity|]. constructor; [apply W|]. apply Forall_forall. intros o Ho. unfold store_all in Ho.
      apply in_map_iff in Ho. destruct Ho as (e & <- & He). apply in_rev in He. rewrite Forall_forall in O.
      destruct (O e He) as [B1 B2]. cbn [store op_typed input_ok]. split; [exact B1|]. split; [exact B2|reflexivity]. }
    split; [exact T|]. rewrite run_ops_table by assumption. rewrite clear_meaning, store_all_meaning.
    + apply conc_abs. exact W.
    + apply Forall_forall. intros e _. now left.
    + apply W.
Qed.

(* ------------------------------------------------------------------ *)
(* Decoders: what they hold was received. *)
Lemma string_received h bs s : bytes bs -> string_wire 5 code_padding h bs s -> receivable s.
Proof.
  intros B H. inversion H as [lb s0 Hi|lb x s0 rest Hi Hx Hsp Hp]; subst.
  - split; [now apply Forall_app in B|]. exists false. cbn [coded_length].
    pose proof (int_wire_bound 7 0 lb _ p7 Hi) as L. unfold MAX_STRING. change (2 ^ 7 - 1) with 127 in L. lia.
  - destruct Hsp as (E & Bs & _). split; [exact Bs|]. exists true. cbn [coded_length].
    pose proof (int_wire_bound 7 1 lb _ p7 Hi) as L. change (2 ^ 7 - 1) with 127 in L. unfold MAX_STRING.
    assert (L2 : List.length (bits_of_bytes x) = (8 * List.length x)%nat) by apply bits_of_bytes_length.
    rewrite E, app_length in L2.
    assert (L3 : ((List.length (codes s) + 7) / 8 <= List.length x)%nat).
    { apply Nat.lt_succ_r. apply Nat.div_lt_upper_bound; lia. }
    lia.
Qed.
Lemma short_receivable s : bytes s -> N.of_nat (List.length s) <= MAX_STRING -> receivable s.
Proof. intros B L. split; [exact B|]. exists false. exact L. Qed.
Lemma static_receivable e : In e rfc_static -> receivable_line e.
Proof.
  intros H.
  assert (F : forallb (fun x => forallb (fun o => o <? 256) (fst x) && forallb (fun o => o <? 256) (snd x) &&
    (N.of_nat (List.length (fst x)) <=? 100) && (N.of_nat (List.length (snd x)) <=? 100)) rfc_static = true) by (vm_compute; reflexivity).
  rewrite forallb_forall in F. specialize (F e H). rewrite !andb_true_iff in F. destruct F as [[[F1 F2] F3] F4].
  rewrite forallb_forall in F1, F2. apply N.leb_le in F3, F4.
  assert (100 <= MAX_STRING) by (unfold MAX_STRING; lia).
  split; apply short_receivable; try lia; apply Forall_forall; intros x Hx; apply N.ltb_lt; [now apply F1|now apply F2].
Qed.
Lemma lookup_receivable l i e : Forall receivable_line l -> lookup l i = Some e -> receivable_line e.
Proof.
  intros H E. pose proof (lookup_bound _ _ _ E). unfold lookup in E. destruct (i =? 0); [discriminate|].
  apply nth_error_In in E. apply in_app_or in E. destruct E as [E|E]; [now apply static_receivable|].
  rewrite Forall_forall in H. now apply H.
Qed.
Lemma fit_receivable max l : Forall receivable_line l -> Forall receivable_line (fit max l).
Proof. intros H. destruct (fit_prefix max l) as [r E]. rewrite E in H. now apply Forall_app in H. Qed.

Definition holds (n : N) (d : dyn) : Prop := Forall receivable_line (entries d) /\ (max_size d = n \/ max_size d <= MAX_UPDATE).
Lemma interp_holds n limit d bs r d' h : bytes bs -> repr_wire 5 code_padding bs r -> interp limit d r = inl (d', h) -> holds n d -> holds n d'.
Proof.
  intros B W E [H M]. inversion W as [bs0 i Hi|k bi i hv bv v Hi Hz Hv|k bi hn bn nm hv bv v Hi Hn Hv|bs0 x Hi]; subst; cbn [interp] in E.
  - destruct (lookup (entries d) i) as [[a b]|]; [|discriminate]. injection E as <- _. now split.
  - cbn [resolve] in E. destruct (lookup (entries d) i) as [e|] eqn:El; [|discriminate]. cbn [option_map] in E. injection E as <- _.
    apply Forall_app in B. destruct B as [_ B]. destruct k; [|now split|now split].
    split; [|exact M]. cbn [insert entries]. apply fit_receivable. constructor; [|exact H].
    split; cbn [fst snd]; [exact (proj1 (lookup_receivable _ _ _ H El))|exact (string_received _ _ _ B Hv)].
  - cbn [resolve] in E. injection E as <- _. apply Forall_app in B. destruct B as [_ B]. apply Forall_app in B. destruct B as [B1 B2]. destruct k; [|now split|now split].
    split; [|exact M]. cbn [insert entries]. apply fit_receivable. constructor; [|exact H].
    split; cbn [fst snd]; [exact (string_received _ _ _ B1 Hn)|exact (string_received _ _ _ B2 Hv)].
  - destruct (x <=? limit); [|discriminate]. injection E as <- _. split; [now apply fit_receivable|]. right. cbn [resize max_size].
    pose proof (int_wire_bound 5 1 _ _ p5 Hi) as L. change (2 ^ 5 - 1) with 31 in L. unfold MAX_UPDATE. lia.
Qed.
Lemma interp_all_holds n limit prs : forall d d' hs, bytes (wire_octets prs) -> wires 5 code_padding prs ->
  interp_all limit d (reprs prs) = Some (d', hs) -> holds n d -> holds n d'.
Proof.
  induction prs as [|[bs r] prs IH]; intros d d' hs B W E H; cbn [reprs map snd interp_all] in E.
  - injection E as <- _. exact H.
  - fold (reprs prs) in E. unfold wire_octets in B. cbn [map fst concat] in B. apply Forall_app in B. destruct B as [B1 B2].
    inversion W as [|? ? W1 W2]; subst. cbn [fst snd] in W1. destruct (interp limit d r) as [[d1 h1]|] eqn:E1; [|discriminate].
    destruct (interp_all limit d1 (reprs prs)) as [[d2 h2]|] eqn:E2; [|discriminate]. injection E as <- _.
    apply (IH d1 d2 h2 B2 W2 E2). exact (interp_holds n limit d bs r d1 h1 B1 W1 E1 H).
Qed.

Lemma do_call_possible m n d c : call_ok c -> dec_possible n d -> dec_possible n (do_call m d c).
Proof.
  intros Hc (P1 & P2 & P3 & P4 & P5). destruct c as [buf dst|cap buf dst|k]; cbn [call_ok] in Hc; cbn [do_call].
  - destruct (hdecode_total m d buf dst P3 Hc) as (p1 & r1 & x1 & h1 & s1 & Eb & Hw & Hi & _ & Hwd & ->).
    assert (B : bytes (wire_octets p1)) by (rewrite Eb in Hc; now apply Forall_app in Hc).
    destruct (interp_all_holds n _ p1 _ _ _ B Hw Hi (conj P4 P5)) as [Q1 Q2].
    refine (conj P1 (conj P2 (conj Hwd (conj Q1 Q2)))).
  - destruct (hdecode_exact_total m cap d buf dst P3 Hc) as (p1 & r1 & x1 & h1 & s1 & Eb & Hw & _ & Hi & _ & Hwd & ->).
    assert (B : bytes (wire_octets p1)) by (rewrite Eb in Hc; now apply Forall_app in Hc).
    destruct (interp_all_holds n _ p1 _ _ _ B Hw Hi (conj P4 P5)) as [Q1 Q2].
    refine (conj P1 (conj P2 (conj Hwd (conj Q1 Q2)))).
  - refine (conj P1 (conj Hc (conj P3 (conj P4 P5)))).
Qed.
Theorem dec_reaches_possible m n d0 d : dec_possible n d0 -> dec_reaches m d0 d -> dec_possible n d.
Proof.
  intros P (cs & C & <-). revert d0 P. induction cs as [|c cs IH]; intros d0 P; [exact P|]. inversion C as [|? ? C1 C2]; subst.
  cbn [fold_left]. apply IH; [exact C2|]. now apply do_call_possible.
Qed.

(* ------------------------------------------------------------------ *)
(* Decoders: what can be received can be held. *)
Definition plain_fits (s : list N) : bool := coded_length false s <=? MAX_STRING.
Definition fitting (e : field_line) : N :=
  4 + (if plain_fits (fst e) then 0 else 1) + (if plain_fits (snd e) then 0 else 2).
Lemma fitting_storing e : storing (fitting e).
Proof. unfold storing, fitting. destruct (plain_fits (fst e)), (plain_fits (snd e)); cbn; auto. Qed.
Lemma plain_fits_coded s : receivable s -> coded_length (negb (plain_fits s)) s <= MAX_STRING.
Proof.
  intros (_ & h & L). unfold plain_fits. destruct (coded_length false s <=? MAX_STRING) eqn:E; cbn [negb]; [now apply N.leb_le|].
  apply N.leb_gt in E. destruct h; [exact L|lia].
Qed.
Lemma fitting_ok limit e : receivable_line e -> op_ok limit (store fitting e).
Proof.
  intros [R1 R2]. pose proof (plain_fits_coded _ R1) as L1. pose proof (plain_fits_coded _ R2) as L2.
  cbn [store op_ok input_ok sendable].
  assert (T : N.testbit (fitting e) 0 = negb (plain_fits (fst e)) /\ N.testbit (fitting e) 1 = negb (plain_fits (snd e)) /\ fitting e < 256)
    by (unfold fitting; destruct (plain_fits (fst e)), (plain_fits (snd e)); cbn [negb]; split; try split; reflexivity).
  destruct T as (T0 & T1 & T2). rewrite T0, T1. split; [split; [apply R1|split; [apply R2|exact T2]]|now split].
Qed.

(* Reading what an encoder with the same table wrote. *)
Lemma follow m d ops : wf (dtable d) -> Forall (op_ok (2 ^ 32 - 1)) ops ->
  dec_reaches m d (mkDec (dspeed d) (2 ^ 32 - 1) (conc (fst (fst (meaning (abs (dtable d)) ops))))).
Proof.
  intros W O. destruct (session_sync m m ops (decoder_set_max d (2 ^ 32 - 1)) (dtable d) [] W eq_refl) as (t' & out & n & E & Et & Ed);
    [reflexivity|exact O|].
  assert (B : bytes out /\ wf t').
  { destruct (session_ok m (2 ^ 32 - 1) ops (dtable d) [] W eq_refl O) as (out' & prs & x & hs & E' & _ & _ & Hw & B & Hi).
    rewrite E in E'. injection E' as -> E'. cbn [List.app] in E'. rewrite E'. split; [exact B|].
    apply (interp_all_wf (2 ^ 32 - 1) prs (abs (dtable d)) x hs); [unfold wfd; now rewrite conc_abs|now apply wires_rfc_code|exact Hi]. }
  destruct B as [B W']. exists [CallLimit (2 ^ 32 - 1); CallDecode out []]. split.
  - constructor; [reflexivity|]. constructor; [exact B|constructor].
  - cbn [fold_left do_call]. rewrite Ed. cbn [fst]. rewrite <- Et, conc_abs by exact W'. reflexivity.
Qed.
Lemma dec_reaches_limit m d0 d k : k < 2 ^ 32 -> dec_reaches m d0 d -> dec_reaches m d0 (decoder_set_max d k).
Proof.
  intros Hk (cs & C & E). exists (cs ++ [CallLimit k]). split; [apply Forall_app; split; [exact C|constructor; [exact Hk|constructor]]|].
  rewrite fold_left_app, E. reflexivity.
Qed.
Lemma store_all_ok limit l : Forall receivable_line l -> Forall (op_ok limit) (store_all fitting l).
Proof.
  intros H. apply Forall_forall. intros o Ho. unfold store_all in Ho. apply in_map_iff in Ho. destruct Ho as (e & <- & He).
  apply in_rev in He. rewrite Forall_forall in H. apply fitting_ok. now apply H.
Qed.
Theorem dec_reaches_any m n d0 d : wf (dtable d0) -> dec_possible n d -> dspeed d0 = FiveBits -> dmax (dtable d) <= MAX_UPDATE -> dec_reaches m d0 d.
Proof.
  intros W0 (P1 & P2 & P3 & P4 & P5) S0 HM.
  pose proof (follow m d0 (Resize 0 :: Resize (dmax (dtable d)) :: store_all fitting (inner (dtable d))) W0) as F.
  rewrite clear_meaning, store_all_meaning in F; [|apply Forall_forall; intros e _; apply fitting_storing|apply P3].
  change (mkdyn (inner (dtable d)) (dmax (dtable d))) with (abs (dtable d)) in F. rewrite conc_abs in F by exact P3.
  apply (dec_reaches_limit m _ _ (dlimit d) P2) in F.
  - destruct d as [sp li ta]. cbn [dspeed dlimit dtable decoder_set_max] in *. rewrite S0, <- P1 in F. exact F.
  - constructor; [split; [lia|unfold MAX_UPDATE; lia]|]. constructor; [split; [destruct P3 as (_ & _ & P3); lia|exact HM]|]. now apply store_all_ok.
Qed.
Theorem dec_reaches_iff m n d : n < 2 ^ 32 -> (dec_reaches m (decoder_with_dynamic_size n) d <-> dec_possible n d).
Proof.
  intros Hn. assert (P0 : dec_possible n (decoder_with_dynamic_size n)).
  { refine (conj eq_refl (conj Hn (conj (wf_new n Hn) (conj (Forall_nil _) (or_introl eq_refl))))). }
  split; [now apply dec_reaches_possible|]. intros P. pose proof P as (P1 & P2 & P3 & P4 & [P5|P5]).
  - pose proof (follow m (decoder_with_dynamic_size n) (store_all fitting (inner (dtable d))) (wf_new n Hn)) as F.
    change (abs (dtable (decoder_with_dynamic_size n))) with (mkdyn [] n) in F. rewrite <- P5 in F.
    rewrite store_all_meaning in F; [|apply Forall_forall; intros e _; apply fitting_storing|apply P3].
    change (mkdyn (inner (dtable d)) (dmax (dtable d))) with (abs (dtable d)) in F. rewrite conc_abs in F by exact P3.
    rewrite P5 in F. apply (dec_reaches_limit m _ _ (dlimit d) P2) in F.
    + destruct d as [sp li ta]. cbn [dspeed dlimit dtable decoder_set_max] in *. rewrite P1. exact F.
    + now apply store_all_ok.
  - apply (dec_reaches_any m n); auto. apply (wf_new n Hn).
Qed.

(* ------------------------------------------------------------------ *)
(* A table encoders get into and no decoder does. *)
Lemma codes_repeat c k : List.length (codes (repeat c k)) = (k * List.length (code c))%nat.
Proof. induction k as [|k IH]; [reflexivity|]. cbn [repeat]. unfold codes in *. cbn [flat_map]. rewrite app_length, IH. lia. Qed.
Lemma too_long_string : exists s, bytes s /\ N.of_nat (List.length s) = MAX_STRING + 1 /\ ~ receivable s.
Proof.
  assert (G : forall k, N.of_nat k = MAX_STRING + 1 -> exists s, bytes s /\ N.of_nat (List.length s) = MAX_STRING + 1 /\ ~ receivable s).
  { intros k Hk. exists (repeat 255 k). split; [apply Forall_forall; intros x Hx; apply repeat_spec in Hx; subst x; reflexivity|].
    rewrite repeat_length. split; [exact Hk|]. intros (_ & [] & L); cbn [coded_length] in L.
    - rewrite codes_repeat in L. change (List.length (code 255)) with 26%nat in L.
      assert (L2 : (k <= (k * 26 + 7) / 8)%nat) by (apply Nat.div_le_lower_bound; lia). lia.
    - rewrite repeat_length in L. lia. }
  apply (G (N.to_nat (MAX_STRING + 1))). apply N2Nat.id.
Qed.
Theorem enc_only m n n0 : n < 2 ^ 32 -> n0 < 2 ^ 32 -> exists t, enc_reaches m (encoder_with_dynamic_size n0) t /\
  forall d, dtable d = t -> ~ dec_reaches m (decoder_with_dynamic_size n) d.
Proof.
  intros Hn Hn0. destruct too_long_string as (s & Bs & Ls & Rs). exists (mkDyn [([], s)] (size [([], s)]) (size [([], s)])).
  split.
  - apply enc_reaches_iff; [now apply wf_new|constructor|]. split.
    + refine (conj eq_refl (conj (N.le_refl _) _)). cbn [dmax size]. unfold line_size. cbn [fst snd List.length]. rewrite Ls. reflexivity.
    + constructor; [|constructor]. split; [constructor|exact Bs].
  - intros d E H. apply dec_reaches_iff in H; [|exact Hn]. destruct H as (_ & _ & _ & F & _). rewrite E in F. cbn [inner] in F.
    inversion F as [|? ? [_ R] _]; subst. exact (Rs R).
Qed.
