(* The HPACK decoder against the specification. *)
From Verif Require Import Base HuffModel HuffSpec HuffDerived Leb HpackModel HpackSpec HpackApi HpackInt HpackStr HpackTab.
Open Scope N_scope.

(* ------------------------------------------------------------------ *)
(* First octet *)

Lemma kp_ok k : prefix_ok (kind_prefix k).
Proof. destruct k; unfold prefix_ok; simpl; lia. Qed.

Lemma octet_facts b : b < 256 ->
  (b / 2 ^ 7 = 1 -> N.land b 128 = 128) /\
  (b / 2 ^ 6 = 1 -> N.land b 128 <> 128 /\ N.land b 64 = 64) /\
  (b / 2 ^ 5 = 1 -> N.land b 128 <> 128 /\ N.land b 64 <> 64 /\ N.land b 32 = 32) /\
  (b / 2 ^ 4 = 1 -> N.land b 128 <> 128 /\ N.land b 64 <> 64 /\ N.land b 32 <> 32 /\ N.land b 16 = 16) /\
  (b / 2 ^ 4 = 0 -> N.land b 128 <> 128 /\ N.land b 64 <> 64 /\ N.land b 32 <> 32 /\ N.land b 16 <> 16) /\
  (b / 2 ^ 7 = 1 \/ b / 2 ^ 6 = 1 \/ b / 2 ^ 5 = 1 \/ b / 2 ^ 4 = 1 \/ b / 2 ^ 4 = 0).
Proof.
  intros H.
  pose (f := fun b =>
    (if b / 2 ^ 7 =? 1 then N.land b 128 =? 128 else true) &&
    (if b / 2 ^ 6 =? 1 then negb (N.land b 128 =? 128) && (N.land b 64 =? 64) else true) &&
    (if b / 2 ^ 5 =? 1 then negb (N.land b 128 =? 128) && negb (N.land b 64 =? 64) && (N.land b 32 =? 32) else true) &&
    (if b / 2 ^ 4 =? 1 then negb (N.land b 128 =? 128) && negb (N.land b 64 =? 64) && negb (N.land b 32 =? 32) && (N.land b 16 =? 16) else true) &&
    (if b / 2 ^ 4 =? 0 then negb (N.land b 128 =? 128) && negb (N.land b 64 =? 64) && negb (N.land b 32 =? 32) && negb (N.land b 16 =? 16) else true) &&
    ((b / 2 ^ 7 =? 1) || (b / 2 ^ 6 =? 1) || (b / 2 ^ 5 =? 1) || (b / 2 ^ 4 =? 1) || (b / 2 ^ 4 =? 0))).
  assert (F : f b = true) by (apply (all_below 256 f); [vm_compute; reflexivity|exact H]).
  unfold f in F. rewrite !andb_true_iff, !orb_true_iff in F.
  destruct F as (((((F1 & F2) & F3) & F4) & F5) & F6).
  rewrite !N.eqb_eq in F6.
  split; [|split; [|split; [|split; [|split; [|tauto]]]]]; intros E; rewrite E in *;
    [clear F2 F3 F4 F5|clear F1 F3 F4 F5|clear F1 F2 F4 F5|clear F1 F2 F3 F5|clear F1 F2 F3 F4];
    rewrite N.eqb_refl in *; rewrite ?andb_true_iff, ?negb_true_iff, ?N.eqb_eq, ?N.eqb_neq in *; tauto.
Qed.

Definition head_is (p hi : N) (buf : list N) : Prop := buf <> [] /\ hd 0 buf / 2 ^ p = hi.

Lemma head_wire lim p hi bs v rest : prefix_ok p -> int_wire lim p hi bs v -> head_is p hi (bs ++ rest).
Proof.
  intros Hp H. split; [|symmetry; eapply wire_hd; eauto].
  apply int_wire_len in H. destruct bs; simpl in *; [lia|discriminate].
Qed.

Lemma head_fault p hi bs f : prefix_ok p -> int_fault p hi bs f -> head_is p hi bs.
Proof.
  intros Hp [H|H].
  - split; [|symmetry; apply cut_hd; auto]. destruct H as (t & -> & _). discriminate.
  - split; [|symmetry; apply long_hd; auto]. destruct H as (t & r & -> & _). discriminate.
Qed.

Lemma dispatch_indexed m d buf dst : bytes buf -> head_is 7 1 buf ->
  decode_one m d buf dst = decode_indexed d buf dst.
Proof.
  intros Hb [Hn Hh]. destruct buf as [|b t]; [congruence|]. simpl hd in Hh.
  apply bytes_cons in Hb as [Hb _]. destruct (octet_facts b Hb) as (F & _).
  unfold decode_one. rewrite (F Hh), N.eqb_refl. reflexivity.
Qed.

Lemma dispatch_size m d buf dst : bytes buf -> head_is 5 1 buf ->
  decode_one m d buf dst = binds (decoder_update_max m d buf dst) (fun s _ => (s, Ok 0)).
Proof.
  intros Hb [Hn Hh]. destruct buf as [|b t]; [congruence|]. simpl hd in Hh.
  apply bytes_cons in Hb as [Hb _]. destruct (octet_facts b Hb) as (_ & _ & F & _).
  destruct (F Hh) as (F1 & F2 & F3). unfold decode_one.
  apply N.eqb_neq in F1, F2. rewrite F1, F2, F3, N.eqb_refl. reflexivity.
Qed.

(* decode_literal with its tests resolved. *)
Definition literal_body (m : mode) (d : decoder) (k : kind) (buf : list N) (dst : list header)
  : dec_state * outcome dec_error N :=
  it <-[(d, buf, dst)] decode_integer buf (kind_prefix k) ;;
  let '(index, total) := it in
  nt <-[(d, buf, dst)]
    (if index =? 0 then
       st <- decode_string m (dspeed d) (drain buf total) ;;
       Ok (fst st, total + snd st)
     else
       match table_get (dtable d) index with
       | Some h => Ok (fst h, total)
       | None => Err DInvalidIndex
       end) ;;
  let '(name, total) := nt in
  vt <-[(d, buf, dst)] decode_string m (dspeed d) (drain buf total) ;;
  let '(value, n) := vt in
  let total := total + n in
  match k with
  | WithIndexing =>
      t' <-[(d, buf, dst)] table_insert m (dtable d) name value ;;
      ((set_table d t', drain buf total, dst ++ [(name, value, 4)]), Ok total)
  | NeverIndexed => ((d, drain buf total, dst ++ [(name, value, 8)]), Ok total)
  | WithoutIndexing => ((d, drain buf total, dst ++ [(name, value, 0)]), Ok total)
  end.

Lemma bindd_ext {D E A B} (dd : D) (x : outcome E A) (f g : A -> D * outcome E B) :
  (forall a, f a = g a) -> bindd dd x f = bindd dd x g.
Proof. intros H. destruct x; simpl; auto. Qed.

Lemma dispatch_literal m d k buf dst : bytes buf -> head_is (kind_prefix k) (kind_bits k) buf ->
  decode_one m d buf dst = literal_body m d k buf dst.
Proof.
  intros Hb [Hn Hh]. destruct buf as [|b t]; [congruence|]. simpl hd in Hh.
  apply bytes_cons in Hb as [Hb _].
  destruct (octet_facts b Hb) as (_ & F6 & _ & F41 & F40 & _).
  unfold decode_one, literal_body, decode_literal. destruct k; simpl kind_prefix in *; simpl kind_bits in *.
  - destruct (F6 Hh) as (F1 & F2). apply N.eqb_neq in F1. rewrite F1, F2, N.eqb_refl. reflexivity.
  - destruct (F40 Hh) as (F1 & F2 & F3 & F4). apply N.eqb_neq in F1, F2, F3, F4.
    rewrite F1, F2, F3, F4. reflexivity.
  - destruct (F41 Hh) as (F1 & F2 & F3 & F4). apply N.eqb_neq in F1, F2, F3.
    rewrite F1, F2, F3, F4, N.eqb_refl. reflexivity.
Qed.

(* ------------------------------------------------------------------ *)
(* One representation *)

Lemma drain_app a b : drain (a ++ b) (N.of_nat (length a)) = b.
Proof. unfold drain. rewrite Nat2N.id, skipn_app, skipn_all, Nat.sub_diag. reflexivity. Qed.

Lemma drain_app2 a b c n : n = N.of_nat (length a) + N.of_nat (length b) -> drain (a ++ b ++ c) n = c.
Proof.
  intros ->. rewrite app_assoc, <- Nat2N.inj_add, <- app_length. apply drain_app.
Qed.

Definition step_result (d : decoder) (bs rest : list N) (dst : list header) (r : repr)
  : dec_state * outcome dec_error N :=
  match interp (dlimit d) (abs (dtable d)) r with
  | inl (d', hs) =>
      ((set_table d (conc d'), rest, dst ++ hs), Ok (if is_size r then 0 else N.of_nat (length bs)))
  | inr e => ((d, bs ++ rest, dst), Err (refusal_error e))
  end.

Lemma set_table_same d : wf (dtable d) -> set_table d (conc (abs (dtable d))) = d.
Proof. intros H. rewrite conc_abs by exact H. destruct d; reflexivity. Qed.

Lemma kind_tail m d k buf dst name value total rest : wf (dtable d) -> drain buf total = rest ->
  match k with
  | WithIndexing =>
      t' <-[(d, buf, dst)] table_insert m (dtable d) name value ;;
      ((set_table d t', drain buf total, dst ++ [(name, value, 4)]), Ok total)
  | NeverIndexed => ((d, drain buf total, dst ++ [(name, value, 8)]), Ok total)
  | WithoutIndexing => ((d, drain buf total, dst ++ [(name, value, 0)]), Ok total)
  end =
  ((set_table d (conc (match k with WithIndexing => insert (abs (dtable d)) (name, value) | _ => abs (dtable d) end)),
    rest, dst ++ [(name, value, kind_flag k)]), Ok total : outcome dec_error N).
Proof.
  intros Hw <-. destruct k; simpl kind_flag.
  - destruct (@table_insert_ok dec_error m (dtable d) name value Hw) as [-> _]. reflexivity.
  - rewrite set_table_same by exact Hw. reflexivity.
  - rewrite set_table_same by exact Hw. reflexivity.
Qed.

Lemma decode_one_wire m d bs rest dst r : wf (dtable d) -> bytes (bs ++ rest) ->
  repr_wire 5 code_padding bs r -> (match r with RSize n => n < 2 ^ 32 | _ => True end) ->
  decode_one m d (bs ++ rest) dst = step_result d bs rest dst r.
Proof.
  intros Hw Hb H Hsz. unfold step_result.
  destruct H as [bs i Hi|k bi i hv bv v Hi Hi0 Hv|k bi hn bn n hv bv v Hi Hn Hv|bs n Hi].
  - rewrite dispatch_indexed by (auto; eapply head_wire; eauto using p7). unfold decode_indexed.
    rewrite (decode_integer_wire 7 1 bs i rest p7 Hi). cbn [bindd]. rewrite get_lookup.
    simpl interp. destruct (lookup (inner (dtable d)) i) as [[n v]|]; [|reflexivity].
    rewrite drain_app, set_table_same by exact Hw. reflexivity.
  - rewrite <- app_assoc in *.
    rewrite (dispatch_literal m d k) by (auto; eapply head_wire; eauto using kp_ok). unfold literal_body.
    rewrite (decode_integer_wire _ _ bi i _ (kp_ok k) Hi). cbn [bindd].
    apply N.eqb_neq in Hi0. rewrite Hi0, get_lookup. cbn [interp resolve abs entries].
    destruct (lookup (inner (dtable d)) i) as [[n v']|]; [|reflexivity].
    cbn [bindd option_map fst]. rewrite drain_app.
    apply bytes_app in Hb as [Hb1 Hb2]. apply bytes_app in Hb2 as [Hb2 Hb3].
    rewrite (decode_string_wire m (dspeed d) hv bv v rest Hb2 Hv). cbn [bindd].
    rewrite (kind_tail m d k _ dst n v _ rest Hw) by (apply drain_app2; reflexivity).
    cbn [is_size]. rewrite app_length, Nat2N.inj_add. reflexivity.
  - rewrite <- !app_assoc in *.
    rewrite (dispatch_literal m d k) by (auto; eapply head_wire; eauto using kp_ok). unfold literal_body.
    rewrite (decode_integer_wire _ _ bi 0 _ (kp_ok k) Hi). cbn [bindd].
    rewrite N.eqb_refl, drain_app. cbn [interp resolve].
    apply bytes_app in Hb as [Hb1 Hb2]. apply bytes_app in Hb2 as [Hb2 Hb3]. apply bytes_app in Hb3 as [Hb3 Hb4].
    rewrite (decode_string_wire m (dspeed d) hn bn n (bv ++ rest) Hb2 Hn). cbn [bind bindd fst snd].
    rewrite drain_app2 by reflexivity.
    rewrite (decode_string_wire m (dspeed d) hv bv v rest Hb3 Hv). cbn [bindd].
    rewrite (kind_tail m d k _ dst n v _ rest Hw).
    + cbn [is_size]. do 2 f_equal. rewrite !app_length. lia.
    + rewrite (app_assoc bi), (app_assoc (bi ++ bn)). rewrite <- Nat2N.inj_add, <- app_length, <- Nat2N.inj_add, <- app_length.
      apply drain_app.
  - rewrite dispatch_size by (auto; eapply head_wire; eauto using p5). unfold decoder_update_max.
    rewrite (decode_integer_wire 5 1 bs n rest p5 Hi). cbn [bindd]. cbn [interp is_size].
    rewrite N.ltb_antisym. destruct (n <=? dlimit d) eqn:E; cbn [negb].
    + destruct (@table_update_ok dec_error m (dtable d) n Hw Hsz) as [-> _]. cbn [bindd binds].
      rewrite drain_app, app_nil_r. reflexivity.
    + reflexivity.
Qed.

Lemma repr_size_bound bs n : repr_wire 5 code_padding bs (RSize n) -> n < 2 ^ 32.
Proof.
  intros H. inversion H as [| | |bs' n' Hi]; subst. apply int_wire_bound in Hi; [|apply p5].
  change (2 ^ 5 - 1 + 2 ^ 28) with 268435487 in Hi. change (2 ^ 32) with 4294967296. lia.
Qed.

Lemma decode_one_ok m d bs rest dst r : wf (dtable d) -> bytes (bs ++ rest) ->
  repr_wire 5 code_padding bs r ->
  decode_one m d (bs ++ rest) dst = step_result d bs rest dst r.
Proof.
  intros Hw Hb H. apply decode_one_wire; auto. destruct r; auto. eapply repr_size_bound; eauto.
Qed.

Lemma decode_one_fault m d buf dst f : bytes buf -> repr_fault (inner (dtable d)) buf f ->
  decode_one m d buf dst = ((d, buf, dst), fault_outcome f).
Proof.
  intros Hb H.
  assert (Hstr : forall (bs : list N) f' (T : Type) (k : list N * N -> dec_state * outcome dec_error T),
    bytes bs -> string_fault bs f' ->
    bindd (d, buf, dst) (decode_string m (dspeed d) bs) k = ((d, buf, dst), fault_outcome f')).
  { intros bs f' T k Hbs Hf. rewrite (decode_string_fault m (dspeed d) bs f' Hbs Hf). destruct f'; reflexivity. }
  destruct H as [bs f H|bs f H|k bs f H|k bi i rest Hi Hi0 Hl|k bi i e rest f Hi Hi0 Hl Hf|k bi rest f Hi Hf|k bi hn bn n rest f Hi Hn Hf].
  - rewrite dispatch_indexed by (auto; eapply head_fault; eauto using p7). unfold decode_indexed.
    rewrite (decode_integer_fault 7 1 bs f p7 H). destruct f; reflexivity.
  - rewrite dispatch_size by (auto; eapply head_fault; eauto using p5). unfold decoder_update_max.
    rewrite (decode_integer_fault 5 1 bs f p5 H). destruct f; reflexivity.
  - rewrite (dispatch_literal m d k) by (auto; eapply head_fault; eauto using kp_ok). unfold literal_body.
    rewrite (decode_integer_fault _ _ bs f (kp_ok k) H). destruct f; reflexivity.
  - rewrite (dispatch_literal m d k) by (auto; eapply head_wire; eauto using kp_ok). unfold literal_body.
    rewrite (decode_integer_wire _ _ bi i _ (kp_ok k) Hi). cbn [bindd].
    apply N.eqb_neq in Hi0. rewrite Hi0, get_lookup, Hl. reflexivity.
  - rewrite (dispatch_literal m d k) by (auto; eapply head_wire; eauto using kp_ok). unfold literal_body.
    rewrite (decode_integer_wire _ _ bi i _ (kp_ok k) Hi). cbn [bindd].
    apply N.eqb_neq in Hi0. rewrite Hi0, get_lookup, Hl. cbn [bindd]. rewrite drain_app.
    apply bytes_app in Hb as [Hb1 Hb2]. apply Hstr; auto.
  - rewrite (dispatch_literal m d k) by (auto; eapply head_wire; eauto using kp_ok). unfold literal_body.
    rewrite (decode_integer_wire _ _ bi 0 _ (kp_ok k) Hi). cbn [bindd].
    rewrite N.eqb_refl, drain_app. apply bytes_app in Hb as [Hb1 Hb2].
    rewrite (decode_string_fault m (dspeed d) rest f Hb2 Hf). destruct f; reflexivity.
  - rewrite (dispatch_literal m d k) by (auto; eapply head_wire; eauto using kp_ok). unfold literal_body.
    rewrite (decode_integer_wire _ _ bi 0 _ (kp_ok k) Hi). cbn [bindd].
    rewrite N.eqb_refl, drain_app.
    apply bytes_app in Hb as [Hb1 Hb2]. apply bytes_app in Hb2 as [Hb2 Hb3].
    rewrite (decode_string_wire m (dspeed d) hn bn n rest Hb2 Hn). cbn [bind bindd fst snd].
    rewrite drain_app2 by reflexivity. apply Hstr; auto.
Qed.

(* Every non-empty buffer starts with a representation or is faulty. *)
Lemma repr_cases l buf : bytes buf -> buf <> [] ->
  (exists bs rest r, buf = bs ++ rest /\ repr_wire 5 code_padding bs r) \/ (exists f, repr_fault l buf f).
Proof.
  intros Hb Hn. destruct buf as [|b t]; [congruence|].
  assert (Hb0 : b < 256) by (apply bytes_cons in Hb; tauto).
  assert (Hlit : forall k, b / 2 ^ kind_prefix k = kind_bits k ->
     (exists bs rest r, b :: t = bs ++ rest /\ repr_wire 5 code_padding bs r) \/ (exists f, repr_fault l (b :: t) f)).
  { intros k Hk. destruct (int_cases _ (b :: t) (kp_ok k) Hb) as [bi i rest E Hw|E|Hc|Hl]; [|discriminate| |].
    - simpl hd in Hw. rewrite Hk in Hw. rewrite E in *. apply bytes_app in Hb as [Hb1 Hb2].
      destruct (N.eq_dec i 0) as [->|Hi0].
      + destruct (string_cases rest Hb2) as [hn bn n rest' -> Hsn|f Hf].
        * apply bytes_app in Hb2 as [Hb2 Hb3].
          destruct (string_cases rest' Hb3) as [hv bv v rest'' -> Hsv|f Hf].
          -- left. exists (bi ++ bn ++ bv), rest'', (RLiteral k (NameLiteral hn n) hv v). split.
             ++ now rewrite <- !app_assoc.
             ++ constructor; auto.
          -- right. exists f. eapply rf_value2; eauto.
        * right. exists f. eapply rf_name; eauto.
      + destruct (lookup l i) as [e|] eqn:El.
        * destruct (string_cases rest Hb2) as [hv bv v rest' -> Hsv|f Hf].
          -- left. exists (bi ++ bv), rest', (RLiteral k (NameIndex i) hv v). split.
             ++ now rewrite <- !app_assoc.
             ++ econstructor; eauto.
          -- right. exists f. eapply rf_value1; eauto.
        * right. exists BadName. eapply rf_bad_name; eauto.
    - simpl hd in Hc. rewrite Hk in Hc. right. exists Cut. eapply rf_name_index. constructor. eauto.
    - simpl hd in Hl. rewrite Hk in Hl. right. exists Long. eapply rf_name_index. constructor. eauto. }
  destruct (octet_facts b Hb0) as (_ & _ & _ & _ & _ & [H|[H|[H|[H|H]]]]).
  - destruct (int_cases 7 (b :: t) p7 Hb) as [bi i rest E Hw|E|Hc|Hl]; [|discriminate| |]; simpl hd in *.
    + rewrite H in Hw. left. exists bi, rest, (RIndexed i). split; auto. constructor. auto.
    + rewrite H in Hc. right. exists Cut. apply rf_indexed. constructor. auto.
    + rewrite H in Hl. right. exists Long. apply rf_indexed. constructor. auto.
  - apply (Hlit WithIndexing). exact H.
  - destruct (int_cases 5 (b :: t) p5 Hb) as [bi i rest E Hw|E|Hc|Hl]; [|discriminate| |]; simpl hd in *.
    + rewrite H in Hw. left. exists bi, rest, (RSize i). split; auto. constructor. auto.
    + rewrite H in Hc. right. exists Cut. apply rf_size. constructor. auto.
    + rewrite H in Hl. right. exists Long. apply rf_size. constructor. auto.
  - apply (Hlit NeverIndexed). exact H.
  - apply (Hlit WithoutIndexing). exact H.
Qed.

Lemma repr_wire_nonempty lim pad bs r : repr_wire lim pad bs r -> (1 <= length bs)%nat.
Proof.
  intros H. destruct H as [bs i Hi|k bi i hv bv v Hi Hi0 Hv|k bi hn bn n hv bv v Hi Hn Hv|bs n Hi];
    apply int_wire_len in Hi; rewrite ?app_length; lia.
Qed.

Lemma repr_fault_nonempty l buf f : repr_fault l buf f -> buf <> [].
Proof.
  intros H.
  destruct H as [bs f H|bs f H|k bs f H|k bi i rest Hi Hi0 Hl|k bi i e rest f Hi Hi0 Hl Hf|k bi rest f Hi Hf|k bi hn bn n rest f Hi Hn Hf].
  - destruct (head_fault _ _ _ _ p7 H). assumption.
  - destruct (head_fault _ _ _ _ p5 H). assumption.
  - destruct (head_fault _ _ _ _ (kp_ok k) H). assumption.
  - apply (head_wire _ _ _ _ _ rest (kp_ok k) Hi).
  - apply (head_wire _ _ _ _ _ rest (kp_ok k) Hi).
  - apply (head_wire _ _ _ _ _ rest (kp_ok k) Hi).
  - apply (head_wire _ _ _ _ _ (bn ++ rest) (kp_ok k) Hi).
Qed.

(* ------------------------------------------------------------------ *)
(* Interpretation keeps the table within its bounds *)

Definition wfd (d : dyn) : Prop := wf (conc d).

Lemma interp_wf limit d r d' hs : wfd d -> (match r with RSize n => n < 2 ^ 32 | _ => True end) ->
  interp limit d r = inl (d', hs) -> wfd d'.
Proof.
  intros Hw Hsz H. assert (Hm : max_size d < 2 ^ 32) by apply Hw.
  destruct r as [i|k n h v|n]; simpl in H.
  - destruct (lookup (entries d) i) as [[a b]|]; [|discriminate]. injection H as <- _. exact Hw.
  - destruct (resolve d n); [|discriminate]. injection H as <- _.
    destruct k; auto. apply wf_conc_fit. exact Hm.
  - destruct (n <=? limit); [|discriminate]. injection H as <- _. apply wf_conc_fit. exact Hsz.
Qed.

Lemma interp_wire_wf limit d bs r d' hs : wfd d -> repr_wire 5 code_padding bs r ->
  interp limit d r = inl (d', hs) -> wfd d'.
Proof.
  intros Hw Hr. apply interp_wf; auto. destruct r; auto. eapply repr_size_bound; eauto.
Qed.

Lemma interp_all_wf limit prs : forall d d' hs, wfd d -> wires 5 code_padding prs ->
  interp_all limit d (reprs prs) = Some (d', hs) -> wfd d'.
Proof.
  induction prs as [|[bs r] prs IH]; intros d d' hs Hw Hp H; simpl in H.
  - injection H as <- _. exact Hw.
  - inversion Hp; subst. simpl in H2. destruct (interp limit d r) as [[d1 h1]|] eqn:E; [|discriminate].
    fold (reprs prs) in H.
    destruct (interp_all limit d1 (reprs prs)) as [[d2 h2]|] eqn:E2; [|discriminate].
    injection H as <- _. eapply IH; [|eassumption|eassumption]. eapply interp_wire_wf; eauto.
Qed.

(* ------------------------------------------------------------------ *)
(* Blocks *)

Lemma one_then_stop m d buf : buf <> [] ->
  hdecode_exact m 1 d buf [] =
    (fst (decode_one m d buf []), match snd (decode_one m d buf []) with Ok n => Ok (0 + n) | x => x end).
Proof.
  intros Hn. destruct buf as [|b t]; [congruence|]. unfold hdecode_exact. cbn [decode_exact_loop].
  destruct (decode_one m d (b :: t) []) as [[[d' buf'] dst'] [n|e| |]]; simpl; try reflexivity.
  destruct buf'; reflexivity.
Qed.

Lemma abs_set d x : abs (dtable (set_table d (conc x))) = x.
Proof. destruct d. simpl. apply abs_conc. Qed.

Lemma decode_loop_ok m limit : forall prs fuel d x rest d' hs s dst total,
  dlimit d = limit -> dtable d = conc x -> wfd x ->
  bytes (wire_octets prs ++ rest) -> (length (wire_octets prs ++ rest) <= fuel)%nat ->
  wires 5 code_padding prs ->
  interp_all limit x (reprs prs) = Some (d', hs) ->
  ends limit d' rest s ->
  decode_loop m fuel d (wire_octets prs ++ rest) dst total =
    ((set_table d (conc d'), rest, dst ++ hs), stop_outcome s (total + counted prs)).
Proof.
  induction prs as [|[bs r] prs IH]; intros fuel d x rest d' hs s dst total Hlim Ht Hw Hb Hf Hp Hi He.
  - simpl in Hi. injection Hi as <- <-. unfold wire_octets in *. simpl app in *. simpl counted.
    rewrite app_nil_r, N.add_0_r.
    assert (Hset : set_table d (conc x) = d) by (rewrite <- Ht; destruct d; reflexivity).
    rewrite Hset.
    destruct He as [|rest f Hrf|b r rest e Hr Hri].
    + destruct fuel; reflexivity.
    + pose proof (repr_fault_nonempty _ _ _ Hrf) as Hne.
      destruct rest as [|c rest]; [congruence|]. destruct fuel as [|fuel]; [simpl in Hf; lia|].
      cbn [decode_loop]. rewrite one_then_stop by discriminate.
      rewrite (decode_one_fault m d (c :: rest) [] f Hb).
      2:{ rewrite Ht. exact Hrf. }
      simpl. destruct f; reflexivity.
    + pose proof (repr_wire_nonempty _ _ _ _ Hr) as Hlen.
      destruct (b ++ rest) as [|c l] eqn:El; [destruct b; simpl in *; [lia|discriminate]|].
      destruct fuel as [|fuel]; [simpl in Hf; lia|]. cbn [decode_loop].
      rewrite one_then_stop by discriminate.
      assert (Hwt : wf (dtable d)) by (rewrite Ht; exact Hw).
      rewrite <- El in *. rewrite (decode_one_ok m d b rest [] r Hwt Hb Hr).
      unfold step_result. rewrite Ht, abs_conc, Hlim, Hri. reflexivity.
  - inversion Hp as [|? ? Hr Hp']; subst. simpl in Hr. simpl in Hi.
    destruct (interp (dlimit d) x r) as [[d1 h1]|] eqn:E; [|discriminate]. fold (reprs prs) in Hi.
    destruct (interp_all (dlimit d) d1 (reprs prs)) as [[d2 h2]|] eqn:E2; [|discriminate].
    injection Hi as <- <-. unfold wire_octets in *. simpl map in *. simpl concat in *.
    fold (wire_octets prs) in *. rewrite <- app_assoc in *.
    pose proof (repr_wire_nonempty _ _ _ _ Hr) as Hlen.
    destruct fuel as [|fuel]; [rewrite app_length in Hf; lia|].
    assert (Hwt : wf (dtable d)) by (rewrite Ht; exact Hw).
    assert (Hne : bs ++ wire_octets prs ++ rest <> []) by (destruct bs; simpl in *; [lia|discriminate]).
    transitivity (match hdecode_exact m 1 d (bs ++ wire_octets prs ++ rest) [] with
          | ((d', buf', data), Ok n) => decode_loop m fuel d' buf' (dst ++ data) (total + n)
          | ((d', buf', _), Err e) => ((d', buf', dst), Err e)
          | ((d', buf', _), Panic) => ((d', buf', dst), Panic)
          | ((d', buf', _), OutOfFuel) => ((d', buf', dst), OutOfFuel)
          end).
    { destruct (bs ++ wire_octets prs ++ rest); [congruence|reflexivity]. }
    rewrite one_then_stop by exact Hne.
    rewrite (decode_one_ok m d bs _ [] r Hwt Hb Hr). unfold step_result.
    rewrite Ht, abs_conc, E. cbn [fst snd app].
    rewrite (IH fuel (set_table d (conc d1)) d1 rest d2 h2 s).
    + rewrite <- app_assoc. f_equal. simpl counted. f_equal. destruct (is_size r); lia.
    + reflexivity.
    + reflexivity.
    + eapply interp_wire_wf; eauto.
    + apply bytes_app in Hb. tauto.
    + rewrite app_length in Hf. lia.
    + exact Hp'.
    + exact E2.
    + exact He.
Qed.

(* Every input is a run of representations followed by an end. *)
Lemma runs_exist limit buf : forall x, bytes buf -> wfd x -> exists prs rest d' hs s,
  buf = wire_octets prs ++ rest /\ wires 5 code_padding prs /\
  interp_all limit x (reprs prs) = Some (d', hs) /\ ends limit d' rest s.
Proof.
  remember (length buf) as n eqn:Hn. revert buf Hn. induction n as [n IH] using lt_wf_ind.
  intros buf Hn x Hb Hx. destruct buf as [|c t].
  - exists [], [], x, [], Done. repeat split; try constructor.
  - destruct (repr_cases (entries x) (c :: t) Hb) as [(bs & rest & r & E & Hr)|[f Hf]]; [discriminate| |].
    + destruct (interp limit x r) as [[x1 h1]|e] eqn:Ei.
      * pose proof (repr_wire_nonempty _ _ _ _ Hr) as Hlen. rewrite E in *. apply bytes_app in Hb as [Hb1 Hb2].
        assert (Hx1 : wfd x1) by (eapply interp_wire_wf; eauto).
        destruct (IH (length rest)) with (buf := rest) (x := x1) as (prs & rest' & d' & hs & s & E' & Hp & Hi & He); auto.
        { subst n. rewrite app_length. lia. }
        exists ((bs, r) :: prs), rest', d', (h1 ++ hs), s. split; [|split; [|split]].
        -- unfold wire_octets in *. simpl. rewrite E' at 1. now rewrite app_assoc.
        -- constructor; auto.
        -- simpl. rewrite Ei. fold (reprs prs). rewrite Hi. reflexivity.
        -- exact He.
      * exists [], (c :: t), x, [], (Refused e). repeat split; try constructor.
        rewrite E. econstructor; eauto.
    + exists [], (c :: t), x, [], (Fault f). repeat split; try constructor. exact Hf.
Qed.

(* decode, completely. *)
Theorem hdecode_ok m d prs rest d' hs s dst : wf (dtable d) ->
  bytes (wire_octets prs ++ rest) -> wires 5 code_padding prs ->
  interp_all (dlimit d) (abs (dtable d)) (reprs prs) = Some (d', hs) ->
  ends (dlimit d) d' rest s ->
  hdecode m d (wire_octets prs ++ rest) dst =
    ((set_table d (conc d'), rest, dst ++ hs), stop_outcome s (counted prs)).
Proof.
  intros Hw Hb Hp Hi He. unfold hdecode.
  rewrite (decode_loop_ok m (dlimit d) prs _ d (abs (dtable d)) rest d' hs s); auto.
  - rewrite conc_abs; auto.
  - unfold wfd. rewrite conc_abs; auto.
Qed.

Theorem hdecode_total m d buf dst : wf (dtable d) -> bytes buf ->
  exists prs rest d' hs s,
    buf = wire_octets prs ++ rest /\ wires 5 code_padding prs /\
    interp_all (dlimit d) (abs (dtable d)) (reprs prs) = Some (d', hs) /\
    ends (dlimit d) d' rest s /\ wfd d' /\
    hdecode m d buf dst = ((set_table d (conc d'), rest, dst ++ hs), stop_outcome s (counted prs)).
Proof.
  intros Hw Hb. assert (Hx : wfd (abs (dtable d))) by (unfold wfd; rewrite conc_abs; auto).
  destruct (runs_exist (dlimit d) buf (abs (dtable d)) Hb Hx) as (prs & rest & d' & hs & s & E & Hp & Hi & He).
  exists prs, rest, d', hs, s.
  split; [exact E|split; [exact Hp|split; [exact Hi|split; [exact He|split]]]].
  - eapply interp_all_wf; eauto.
  - rewrite E in *. apply hdecode_ok; auto.
Qed.

(* decode_exact *)
Lemma decode_exact_ok m limit : forall prs cap d x rest d' hs s dst total,
  dlimit d = limit -> dtable d = conc x -> wfd x ->
  bytes (wire_octets prs ++ rest) -> wires 5 code_padding prs ->
  interp_all limit x (reprs prs) = Some (d', hs) ->
  (length prs = cap /\ s = Done \/ (length prs < cap)%nat /\ ends limit d' rest s) ->
  decode_exact_loop m cap d (wire_octets prs ++ rest) dst total =
    ((set_table d (conc d'), rest, dst ++ hs), stop_outcome s (total + counted prs)).
Proof.
  induction prs as [|[bs r] prs IH]; intros cap d x rest d' hs s dst total Hlim Ht Hw Hb Hp Hi He.
  - simpl in Hi. injection Hi as <- <-. unfold wire_octets in *. simpl app in *. simpl counted.
    rewrite app_nil_r, N.add_0_r.
    assert (Hset : set_table d (conc x) = d) by (rewrite <- Ht; destruct d; reflexivity).
    rewrite Hset. destruct He as [[Hc ->]|[Hc He]].
    + simpl in Hc. subst cap. destruct rest; reflexivity.
    + simpl in Hc. destruct cap as [|cap]; [lia|].
      destruct He as [|rest f Hrf|b r rest e Hr Hri].
      * reflexivity.
      * pose proof (repr_fault_nonempty _ _ _ Hrf) as Hne. destruct rest as [|c rest]; [congruence|].
        cbn [decode_exact_loop]. rewrite (decode_one_fault m d (c :: rest) dst f Hb) by (rewrite Ht; exact Hrf).
        destruct f; reflexivity.
      * pose proof (repr_wire_nonempty _ _ _ _ Hr) as Hlen.
        destruct (b ++ rest) as [|c l] eqn:El; [destruct b; simpl in *; [lia|discriminate]|].
        cbn [decode_exact_loop].
        assert (Hwt : wf (dtable d)) by (rewrite Ht; exact Hw).
        rewrite <- El in *. rewrite (decode_one_ok m d b rest dst r Hwt Hb Hr).
        unfold step_result. rewrite Ht, abs_conc, Hlim, Hri. reflexivity.
  - inversion Hp as [|? ? Hr Hp']; subst. simpl in Hr. simpl in Hi.
    destruct (interp (dlimit d) x r) as [[d1 h1]|] eqn:E; [|discriminate]. fold (reprs prs) in Hi.
    destruct (interp_all (dlimit d) d1 (reprs prs)) as [[d2 h2]|] eqn:E2; [|discriminate].
    injection Hi as <- <-. unfold wire_octets in *. simpl map in *. simpl concat in *.
    fold (wire_octets prs) in *. rewrite <- app_assoc in *.
    pose proof (repr_wire_nonempty _ _ _ _ Hr) as Hlen.
    destruct cap as [|cap]; [simpl in He; destruct He as [[? _]|[? _]]; lia|].
    assert (Hwt : wf (dtable d)) by (rewrite Ht; exact Hw).
    assert (Hne : bs ++ wire_octets prs ++ rest <> []) by (destruct bs; simpl in *; [lia|discriminate]).
    transitivity (binds (decode_one m d (bs ++ wire_octets prs ++ rest) dst)
        (fun s n => let '(d', buf', dst') := s in
                    decode_exact_loop m cap d' buf' dst' (total + n))).
    { destruct (bs ++ wire_octets prs ++ rest); [congruence|reflexivity]. }
    rewrite (decode_one_ok m d bs _ dst r Hwt Hb Hr). unfold step_result.
    rewrite Ht, abs_conc, E. cbn [binds].
    rewrite (IH cap (set_table d (conc d1)) d1 rest d2 h2 s).
    + rewrite <- app_assoc. f_equal. simpl counted. f_equal. destruct (is_size r); lia.
    + reflexivity.
    + reflexivity.
    + eapply interp_wire_wf; eauto.
    + apply bytes_app in Hb. tauto.
    + exact Hp'.
    + exact E2.
    + simpl in He. destruct He as [[? ?]|[? ?]]; [left|right]; split; auto; lia.
Qed.

Theorem hdecode_exact_ok m cap d prs rest d' hs s dst : wf (dtable d) ->
  bytes (wire_octets prs ++ rest) -> wires 5 code_padding prs ->
  interp_all (dlimit d) (abs (dtable d)) (reprs prs) = Some (d', hs) ->
  (length prs = cap /\ s = Done \/ (length prs < cap)%nat /\ ends (dlimit d) d' rest s) ->
  hdecode_exact m cap d (wire_octets prs ++ rest) dst =
    ((set_table d (conc d'), rest, dst ++ hs), stop_outcome s (counted prs)).
Proof.
  intros Hw Hb Hp Hi He. unfold hdecode_exact.
  rewrite (decode_exact_ok m (dlimit d) prs _ d (abs (dtable d)) rest d' hs s); auto.
  - rewrite conc_abs; auto.
  - unfold wfd. rewrite conc_abs; auto.
Qed.
