(* Consequences used by the HPACK property theorems. *)
From Verif Require Import Base HuffModel HuffSpec HuffCode HuffDerived Leb HpackModel HpackSpec HpackApi
  HpackInt HpackStr HpackTab HpackDec HpackEnc.
Open Scope N_scope.

(* ------------------------------------------------------------------ *)
(* Integers *)
Lemma leb_front t r n : leb128 t r -> (n < length t)%nat -> continued (firstn n t).
Proof.
  intros H. revert n. induction H as [b Hb|b t r Hb Ht IH]; intros n Hn; simpl in Hn.
  - assert (n = 0%nat) by lia. subst. constructor.
  - destruct n as [|n]; [constructor|]. simpl. constructor; [lia|]. apply IH. lia.
Qed.

Lemma integer_round_trip v f p dst rest : prefix_ok p -> f < 256 -> v < 2 ^ 32 ->
  exists bs, encode_integer v f p dst = (dst ++ bs, Ok tt) /\
    (v < 2 ^ p - 1 + 2 ^ 28 -> decode_integer (bs ++ rest) p = Ok (v, N.of_nat (length bs))) /\
    (2 ^ p - 1 + 2 ^ 28 <= v -> decode_integer (bs ++ rest) p = Err DIntegerOverflow).
Proof.
  intros Hp Hf Hv. destruct (encode_integer_ok v f p dst Hp Hf Hv) as (bs & He & Hw & Hs & Hl & _).
  exists bs. split; [exact He|split].
  - intros H. apply (decode_integer_wire p (f / 2 ^ p)); auto. eapply int_wire_le; eauto.
  - intros H. specialize (Hl H). apply (decode_integer_long p (f / 2 ^ p)); [exact Hp|].
    inversion Hw as [v' Hs' Hl'|t r Ht Hl']; subst; [simpl in Hl; lia|].
    simpl in Hl. exists (firstn 4 t), (skipn 4 t ++ rest). split; [|split].
    + rewrite app_assoc, firstn_skipn. reflexivity.
    + eapply leb_front; eauto. lia.
    + rewrite firstn_length. lia.
Qed.

(* ------------------------------------------------------------------ *)
(* Strings *)
Lemma string_round_trip m m' sp data h dst rest : bytes data -> coded_length h data <= MAX_STRING ->
  exists bs, encode_string m data h dst = (dst ++ bs, Ok tt) /\
    decode_string m' sp (bs ++ rest) = Ok (data, N.of_nat (length bs)).
Proof.
  intros Hb Hl. destruct (encode_string_ok m data h dst Hb) as [Hok _].
  destruct Hok as (bs & He & H6 & H5 & _).
  { pose proof max_string_u32. lia. }
  exists bs. split; [exact He|].
  specialize (H5 (max_string_lt _ Hl)).
  apply (decode_string_wire m' sp h).
  - eapply string_wire_bytes; eauto.
  - eapply string_wire_le; [|apply rfc_code_padding|exact H5]. lia.
Qed.

(* ------------------------------------------------------------------ *)
(* Blocks: concatenation and splitting *)
Lemma interp_all_app limit a b : forall d,
  interp_all limit d (a ++ b) =
    match interp_all limit d a with
    | Some (d1, h1) =>
        match interp_all limit d1 b with
        | Some (d2, h2) => Some (d2, h1 ++ h2)
        | None => None
        end
    | None => None
    end.
Proof.
  induction a as [|r a IH]; intros d; simpl.
  - destruct (interp_all limit d b) as [[d2 h2]|]; reflexivity.
  - destruct (interp limit d r) as [[d1 h1]|]; [|reflexivity]. rewrite IH.
    destruct (interp_all limit d1 a) as [[d2 h2]|]; [|reflexivity].
    destruct (interp_all limit d2 b) as [[d3 h3]|]; [|reflexivity].
    rewrite app_assoc. reflexivity.
Qed.

Lemma counted_app a b : counted (a ++ b) = counted a + counted b.
Proof. induction a as [|[bs r] a IH]; simpl; [reflexivity|]. fold (counted (a ++ b)) (counted a). rewrite IH. lia. Qed.

Lemma wire_octets_app a b : wire_octets (a ++ b) = wire_octets a ++ wire_octets b.
Proof. unfold wire_octets. rewrite map_app. apply concat_app. Qed.

(* The first call's leftovers, extended, continue like the whole. *)
Theorem hdecode_split m m' m'' d a b dst : wf (dtable d) -> bytes (a ++ b) ->
  exists d1 rest1 hs1 o1 k d2 rest2 dst2 o2,
    hdecode m d a dst = ((d1, rest1, dst ++ hs1), o1) /\
    hdecode m' d1 (rest1 ++ b) (dst ++ hs1) = ((d2, rest2, dst2), o2) /\
    hdecode m'' d (a ++ b) dst = ((d2, rest2, dst2), add_count k o2) /\
    (forall n, o1 = Ok n -> n = k).
Proof.
  intros Hw Hb. apply bytes_app in Hb as [Ha Hb].
  destruct (hdecode_total m d a dst Hw Ha) as (p1 & r1 & x1 & h1 & s1 & Ea & Hp1 & Hi1 & He1 & Hw1 & Hd1).
  assert (Hr1 : bytes r1) by (rewrite Ea in Ha; apply bytes_app in Ha; tauto).
  assert (Hb1 : bytes (r1 ++ b)) by (apply bytes_app; auto).
  destruct (hdecode_total m' (set_table d (conc x1)) (r1 ++ b) (dst ++ h1)) as
    (p2 & r2 & x2 & h2 & s2 & Eb & Hp2 & Hi2 & He2 & Hw2 & Hd2); auto.
  rewrite abs_set in Hi2. simpl dlimit in *.
  exists (set_table d (conc x1)), r1, h1, (stop_outcome s1 (counted p1)), (counted p1),
    (set_table d (conc x2)), r2, ((dst ++ h1) ++ h2), (stop_outcome s2 (counted p2)).
  split; [exact Hd1|split; [exact Hd2|split]].
  - assert (E : a ++ b = wire_octets (p1 ++ p2) ++ r2).
    { rewrite Ea, <- app_assoc, Eb, wire_octets_app, <- app_assoc. reflexivity. }
    rewrite E, (hdecode_ok m'' d (p1 ++ p2) r2 x2 (h1 ++ h2) s2); auto.
    + rewrite <- app_assoc. f_equal. rewrite counted_app. destruct s2; try reflexivity.
      simpl. destruct f; reflexivity.
    + rewrite <- E. apply bytes_app; auto.
    + apply Forall_app. auto.
    + unfold reprs. rewrite map_app. fold (reprs p1) (reprs p2). rewrite interp_all_app, Hi1, Hi2. reflexivity.
  - intros n Hn. destruct s1 as [|f|e]; simpl in Hn; try discriminate; [congruence|destruct f; discriminate].
Qed.

(* Mode and speed do not matter. *)
Lemma hdecode_mode m m' d buf dst : wf (dtable d) -> bytes buf -> hdecode m d buf dst = hdecode m' d buf dst.
Proof.
  intros Hw Hb. destruct (hdecode_total m d buf dst Hw Hb) as (p1 & r1 & x1 & h1 & s1 & Ea & Hp1 & Hi1 & He1 & Hw1 & Hd1).
  rewrite Hd1, Ea. symmetry. apply hdecode_ok; auto. rewrite <- Ea. exact Hb.
Qed.

(* ------------------------------------------------------------------ *)
(* Faults that no further input can repair *)
Lemma long_ext p hi a b : long_int p hi a -> long_int p hi (a ++ b).
Proof.
  intros (t & r & -> & Hc & Hl). exists t, (r ++ b). split; [|auto]. simpl. rewrite <- app_assoc. reflexivity.
Qed.

Lemma string_fault_ext a b f : f <> Cut -> f <> Short -> string_fault a f -> string_fault (a ++ b) f.
Proof.
  intros H1 H2 H. destruct H as [|hi bs f Hhi H|hi lb len body Hhi Hi Hlt|lb h rest syms tl Hi Hs Hp]; try congruence.
  - destruct H as [H|H]; [congruence|]. apply (sf_int hi); auto. constructor. apply long_ext. auto.
  - rewrite <- !app_assoc. eapply sf_huffman; eauto.
Qed.

Lemma repr_fault_ext l a b f : f <> Cut -> f <> Short -> repr_fault l a f -> repr_fault l (a ++ b) f.
Proof.
  intros H1 H2 H.
  destruct H as [bs f H|bs f H|k bs f H|k bi i rest Hi Hi0 Hl|k bi i e rest f Hi Hi0 Hl Hf|k bi rest f Hi Hf|k bi hn bn n rest f Hi Hn Hf];
    rewrite <- ?app_assoc.
  - destruct H; [congruence|]. apply rf_indexed. constructor. apply long_ext. auto.
  - destruct H; [congruence|]. apply rf_size. constructor. apply long_ext. auto.
  - destruct H; [congruence|]. apply (rf_name_index l k). constructor. apply long_ext. auto.
  - eapply rf_bad_name; eauto.
  - eapply rf_value1; eauto. apply string_fault_ext; auto.
  - eapply rf_name; eauto. apply string_fault_ext; auto.
  - eapply rf_value2; eauto. apply string_fault_ext; auto.
Qed.

Lemma ends_ext limit d rest s b : s <> Done -> s <> Fault Cut -> s <> Fault Short ->
  ends limit d rest s -> ends limit d (rest ++ b) s.
Proof.
  intros H1 H2 H3 H. destruct H as [|rest f Hf|bs r rest e Hr Hi]; [congruence| |].
  - constructor. apply repr_fault_ext; auto; congruence.
  - rewrite <- app_assoc. econstructor; eauto.
Qed.

(* A verdict other than success, panic and IntegerUnderflow is final. *)
Theorem hdecode_final m m' d a b dst st e : wf (dtable d) -> bytes (a ++ b) ->
  hdecode m d a dst = (st, Err e) -> e <> DIntegerUnderflow ->
  exists d1 rest hs, st = (d1, rest, dst ++ hs) /\
    hdecode m' d (a ++ b) dst = ((d1, rest ++ b, dst ++ hs), Err e).
Proof.
  intros Hw Hb H He. assert (Ha : bytes a) by (apply bytes_app in Hb; tauto).
  destruct (hdecode_total m d a dst Hw Ha) as (p1 & r1 & x1 & h1 & s1 & Ea & Hp1 & Hi1 & He1 & Hw1 & Hd1).
  rewrite Hd1 in H. injection H as <- Hs.
  exists (set_table d (conc x1)), r1, h1. split; [reflexivity|].
  rewrite Ea, <- app_assoc in *.
  rewrite (hdecode_ok m' d p1 (r1 ++ b) x1 h1 s1); auto.
  - rewrite <- Hs. destruct s1 as [|f|e']; simpl in *; [discriminate| |reflexivity].
    destruct f; auto; discriminate.
  - apply ends_ext; auto; intros ->; simpl in Hs; try discriminate. injection Hs as <-. congruence.
Qed.

(* ------------------------------------------------------------------ *)
(* Truncated representations *)
Lemma truncated_fault (m : mode) d a b r : wf (dtable d) -> bytes (a ++ b) -> a <> [] -> b <> [] ->
  repr_wire 5 code_padding (a ++ b) r ->
  (exists x, interp (dlimit d) (abs (dtable d)) r = inl x) ->
  repr_fault (inner (dtable d)) a Cut \/ repr_fault (inner (dtable d)) a Short.
Proof.
  intros Hw Hb Ha Hbn Hr [[d' hs] Hi].
  assert (Hab : bytes a) by (apply bytes_app in Hb; tauto).
  assert (E := decode_one_ok m d (a ++ b) [] [] r Hw ltac:(rewrite app_nil_r; exact Hb) Hr).
  unfold step_result in E. rewrite Hi, app_nil_r in E.
  destruct (repr_cases (inner (dtable d)) a Hab Ha) as [(b1 & rest1 & r1 & Ea & Hr1)|[f Hf]].
  - exfalso. rewrite Ea, <- app_assoc in E, Hb.
    rewrite (decode_one_ok m d b1 (rest1 ++ b) [] r1 Hw Hb Hr1) in E. unfold step_result in E.
    destruct (interp (dlimit d) (abs (dtable d)) r1) as [[d2 h2]|e]; [|discriminate].
    apply (f_equal (fun x => snd (fst (fst x)))) in E. simpl in E. apply app_eq_nil in E. tauto.
  - destruct f; auto; exfalso;
      apply (repr_fault_ext _ _ b) in Hf; try discriminate;
      rewrite (decode_one_fault m d (a ++ b) [] _ Hb Hf) in E; discriminate.
Qed.

Theorem hdecode_truncated (m : mode) d prs a b r d' hs dst x : wf (dtable d) ->
  bytes (wire_octets prs ++ a ++ b) -> wires 5 code_padding prs ->
  interp_all (dlimit d) (abs (dtable d)) (reprs prs) = Some (d', hs) ->
  a <> [] -> b <> [] -> repr_wire 5 code_padding (a ++ b) r -> interp (dlimit d) d' r = inl x ->
  hdecode m d (wire_octets prs ++ a) dst = ((set_table d (conc d'), a, dst ++ hs), Panic) \/
  hdecode m d (wire_octets prs ++ a) dst = ((set_table d (conc d'), a, dst ++ hs), Err DIntegerUnderflow).
Proof.
  intros Hw Hb Hp Hi Ha Hbn Hr Hx.
  assert (Hx' : wfd (abs (dtable d))) by (apply wfd_abs; auto).
  assert (Hwd : wfd d') by (eapply interp_all_wf; eauto).
  assert (Hb2 : bytes (a ++ b)) by (apply bytes_app in Hb; tauto).
  assert (Hb3 : bytes (wire_octets prs ++ a)).
  { rewrite app_assoc in Hb. apply bytes_app in Hb. tauto. }
  destruct (truncated_fault m (set_table d (conc d')) a b r) as [H|H]; auto.
  - exists x. rewrite abs_set. exact Hx.
  - left. apply (hdecode_ok m d prs a d' hs (Fault Cut)); auto. constructor. exact H.
  - right. apply (hdecode_ok m d prs a d' hs (Fault Short)); auto. constructor. exact H.
Qed.

(* Panics, exactly. *)
Theorem hdecode_panic_iff m d buf dst : wf (dtable d) -> bytes buf ->
  (snd (hdecode m d buf dst) = Panic <->
   exists prs rest d' hs, buf = wire_octets prs ++ rest /\ wires 5 code_padding prs /\
    interp_all (dlimit d) (abs (dtable d)) (reprs prs) = Some (d', hs) /\
    repr_fault (entries d') rest Cut).
Proof.
  intros Hw Hb. split.
  - intros H. destruct (hdecode_total m d buf dst Hw Hb) as (p1 & r1 & x1 & h1 & s1 & Ea & Hp1 & Hi1 & He1 & Hw1 & Hd1).
    rewrite Hd1 in H. simpl in H. exists p1, r1, x1, h1. repeat split; auto.
    destruct He1 as [|rest f Hf|b r rest e Hr Hi]; simpl in H; try discriminate.
    destruct f; try discriminate. exact Hf.
  - intros (prs & rest & d' & hs & -> & Hp & Hi & Hf).
    rewrite (hdecode_ok m d prs rest d' hs (Fault Cut)); auto. constructor. exact Hf.
Qed.

(* decode never runs out of fuel, i.e. terminates. *)
Lemma stop_not_fuel s n : stop_outcome s n <> OutOfFuel.
Proof. destruct s as [|f|e]; simpl; try discriminate. destruct f; discriminate. Qed.

Theorem hdecode_terminates m d buf dst : wf (dtable d) -> bytes buf -> snd (hdecode m d buf dst) <> OutOfFuel.
Proof.
  intros Hw Hb. destruct (hdecode_total m d buf dst Hw Hb) as (p1 & r1 & x1 & h1 & s1 & _ & _ & _ & _ & _ & ->).
  apply stop_not_fuel.
Qed.

Lemma wires_take prs : forall cap, wires 5 code_padding prs -> (cap <= length prs)%nat ->
  exists p1 p2, prs = p1 ++ p2 /\ length p1 = cap.
Proof.
  intros cap Hp Hc. exists (firstn cap prs), (skipn cap prs). split; [symmetry; apply firstn_skipn|].
  rewrite firstn_length. lia.
Qed.

Theorem hdecode_exact_total m cap d buf dst : wf (dtable d) -> bytes buf ->
  exists prs rest d' hs s,
    buf = wire_octets prs ++ rest /\ wires 5 code_padding prs /\ (length prs <= cap)%nat /\
    interp_all (dlimit d) (abs (dtable d)) (reprs prs) = Some (d', hs) /\
    (length prs = cap /\ s = Done \/ (length prs < cap)%nat /\ ends (dlimit d) d' rest s) /\ wfd d' /\
    hdecode_exact m cap d buf dst = ((set_table d (conc d'), rest, dst ++ hs), stop_outcome s (counted prs)).
Proof.
  intros Hw Hb. assert (Hx : wfd (abs (dtable d))) by (apply wfd_abs; auto).
  destruct (runs_exist (dlimit d) buf (abs (dtable d)) Hb Hx) as (prs & rest & d' & hs & s & E & Hp & Hi & He).
  destruct (Nat.lt_ge_cases (length prs) cap) as [Hlt|Hge].
  - exists prs, rest, d', hs, s. split; [exact E|split; [exact Hp|split; [lia|split; [exact Hi|split; [auto|split]]]]].
    + eapply interp_all_wf; eauto.
    + rewrite E in *. apply hdecode_exact_ok; auto.
  - destruct (wires_take prs cap Hp Hge) as (p1 & p2 & Ep & Hl). subst prs.
    apply Forall_app in Hp as [Hp1 Hp2]. unfold reprs in Hi. rewrite map_app, interp_all_app in Hi.
    fold (reprs p1) (reprs p2) in Hi.
    destruct (interp_all (dlimit d) (abs (dtable d)) (reprs p1)) as [[d1 h1]|] eqn:E1; [|discriminate].
    exists p1, (wire_octets p2 ++ rest), d1, h1, Done.
    rewrite wire_octets_app, <- app_assoc in E.
    split; [exact E|split; [exact Hp1|split; [lia|split; [exact E1|split; [auto|split]]]]].
    + exact (interp_all_wf _ p1 _ _ _ Hx Hp1 E1).
    + rewrite E in *. apply hdecode_exact_ok; auto.
Qed.

Theorem hdecode_exact_terminates m cap d buf dst : wf (dtable d) -> bytes buf ->
  snd (hdecode_exact m cap d buf dst) <> OutOfFuel.
Proof.
  intros Hw Hb. destruct (hdecode_exact_total m cap d buf dst Hw Hb) as (p1 & r1 & x1 & h1 & s1 & _ & _ & _ & _ & _ & _ & ->).
  apply stop_not_fuel.
Qed.

(* ------------------------------------------------------------------ *)
(* Counts *)
Lemma counted_no_size prs : forallb (fun r => negb (is_size r)) (reprs prs) = true ->
  counted prs = N.of_nat (length (wire_octets prs)).
Proof.
  induction prs as [|[b r] prs IH]; simpl; intros H; [reflexivity|].
  apply andb_true_iff in H as [H1 H2]. destruct (is_size r); [discriminate|].
  fold (counted prs). rewrite (IH H2). unfold wire_octets. simpl. rewrite app_length. lia.
Qed.

Lemma counted_lt prs : wires 5 code_padding prs -> forallb (fun r => negb (is_size r)) (reprs prs) = false ->
  counted prs < N.of_nat (length (wire_octets prs)).
Proof.
  assert (Hle : forall p, counted p <= N.of_nat (length (wire_octets p))).
  { induction p as [|[b r] p IH]; simpl; [lia|]. fold (counted p). unfold wire_octets in *. simpl. rewrite app_length.
    destruct (is_size r); lia. }
  induction prs as [|[b r] prs IH]; simpl; intros Hp H; [discriminate|].
  inversion Hp; subst. simpl in H2. apply repr_wire_nonempty in H2.
  fold (counted prs). unfold wire_octets in *. simpl. rewrite app_length.
  specialize (Hle prs). destruct (is_size r); simpl in H.
  - lia.
  - specialize (IH H3 H). lia.
Qed.

(* ------------------------------------------------------------------ *)
(* Bounds of the decoder's table *)
Lemma interp_max limit d r d' hs : interp limit d r = inl (d', hs) ->
  max_size d' <= N.max (max_size d) limit.
Proof.
  intros H. destruct r as [i|k n h v|n]; simpl in H.
  - destruct (lookup (entries d) i) as [[a b]|]; [|discriminate]. injection H as <- _. lia.
  - destruct (resolve d n); [|discriminate]. injection H as <- _. destruct k; simpl; lia.
  - destruct (n <=? limit) eqn:E; [|discriminate]. injection H as <- _. simpl. apply N.leb_le in E. lia.
Qed.

Lemma interp_all_max limit rs : forall d d' hs, interp_all limit d rs = Some (d', hs) ->
  max_size d' <= N.max (max_size d) limit.
Proof.
  induction rs as [|r rs IH]; intros d d' hs H; simpl in H.
  - injection H as <- _. lia.
  - destruct (interp limit d r) as [[d1 h1]|] eqn:E; [|discriminate].
    destruct (interp_all limit d1 rs) as [[d2 h2]|] eqn:E2; [|discriminate].
    injection H as <- _. apply interp_max in E. apply IH in E2. lia.
Qed.

Lemma do_call_ok m d c L : call_ok c -> wf (dtable d) -> dlimit d <= L -> dmax (dtable d) <= L ->
  wf (dtable (do_call m d c)) /\
    dlimit (do_call m d c) <= (match c with CallLimit n => N.max L n | _ => L end) /\
    dmax (dtable (do_call m d c)) <= (match c with CallLimit n => N.max L n | _ => L end).
Proof.
  intros Hc Hw Hl Hm. destruct c as [buf dst|cap buf dst|n]; simpl in Hc; simpl do_call.
  - destruct (hdecode_total m d buf dst Hw Hc) as (p1 & r1 & x1 & h1 & s1 & _ & _ & Hi & _ & Hwd & ->).
    simpl. apply interp_all_max in Hi. simpl in Hi. repeat split; try apply Hwd; lia.
  - destruct (hdecode_exact_total m cap d buf dst Hw Hc) as (p1 & r1 & x1 & h1 & s1 & _ & _ & _ & Hi & _ & Hwd & ->).
    simpl. apply interp_all_max in Hi. simpl in Hi. repeat split; try apply Hwd; lia.
  - simpl. split; [exact Hw|]. lia.
Qed.

Theorem calls_bounded m cs : forall d L, Forall call_ok cs -> wf (dtable d) -> dlimit d <= L -> dmax (dtable d) <= L ->
  let d' := fold_left (do_call m) cs d in
  wf (dtable d') /\ dlimit d' <= largest L cs /\ dmax (dtable d') <= largest L cs.
Proof.
  induction cs as [|c cs IH]; intros d L Hc Hw Hl Hm; simpl; [auto|].
  inversion Hc; subst. destruct (do_call_ok m d c L H1 Hw Hl Hm) as (A & B & C).
  destruct c; simpl in *; apply IH; auto.
Qed.

(* ------------------------------------------------------------------ *)
(* The encoder's IntegerOverflow failure leaves traces *)
Definition traces (t : table) (dst : list N) (r : repr) (x : enc_state * outcome enc_error unit) : Prop :=
  exists d' hs junk, x = ((conc d', dst ++ junk), Err EIntegerOverflow) /\ junk <> [] /\
    (forall limit, interp limit (abs t) r = inl (d', hs)) /\ wfd d'.

Lemma wire_not_nil lim p hi bs v x : int_wire lim p hi bs v -> bs ++ x <> [].
Proof. intros H E. apply app_eq_nil in E as [-> _]. apply int_wire_len in H. simpl in H. lia. Qed.

Lemma indexed_name_overflow m t i v fl dst e : wf t -> bytes v -> fl < 256 ->
  lookup (inner t) i = Some e -> U32_MAX < coded_length (N.testbit fl 1) v ->
  traces t dst (RLiteral (kind_of fl) (NameIndex i) (N.testbit fl 1) v)
    (encode_indexed_name m t i v fl dst).
Proof.
  intros Hw Hv Hf He Hl.
  destruct (encode_indexed_name_ok m t i v fl dst e Hw Hv Hf He) as (bi & Hbi & ->).
  destruct (encode_string_ok m v (N.testbit fl 1) (dst ++ bi) Hv) as [_ Hbad]. rewrite (Hbad Hl).
  exists (lit_after (abs t) (kind_of fl) (fst e, v)), [(fst e, v, kind_flag (kind_of fl))], bi.
  split; [reflexivity|]. split; [rewrite <- (app_nil_r bi); eapply wire_not_nil; eauto|]. split.
  - intros limit. cbn [interp resolve abs entries]. rewrite He. reflexivity.
  - apply lit_after_wf. apply wfd_abs. exact Hw.
Qed.

Lemma literal_overflow m t n v fl dst : wf t -> bytes n -> bytes v -> fl < 256 ->
  U32_MAX < coded_length (N.testbit fl 0) n \/ U32_MAX < coded_length (N.testbit fl 1) v ->
  traces t dst (RLiteral (kind_of fl) (NameLiteral (N.testbit fl 0) n) (N.testbit fl 1) v)
    (encode_literal m t n v fl dst).
Proof.
  intros Hw Hn Hv Hf Hl.
  destruct (encode_literal_ok m t n v fl dst Hw Hf) as (bi & Hbi & ->). cbv zeta.
  destruct (encode_string_ok m n (N.testbit fl 0) (dst ++ bi) Hn) as [Hok Hbad].
  exists (lit_after (abs t) (kind_of fl) (n, v)), [(n, v, kind_flag (kind_of fl))].
  destruct (N.le_gt_cases (coded_length (N.testbit fl 0) n) U32_MAX) as [Hle|Hgt].
  - destruct (Hok Hle) as (bn & -> & Hn6 & _ & _). cbn [with_table binds fst snd].
    destruct (encode_string_ok m v (N.testbit fl 1) ((dst ++ bi) ++ bn) Hv) as [_ Hbad2].
    rewrite Hbad2 by (destruct Hl; [lia|assumption]). exists (bi ++ bn).
    split; [cbn [with_table]; rewrite <- app_assoc; reflexivity|].
    split; [eapply wire_not_nil; eauto|]. split; [reflexivity|].
    apply lit_after_wf. apply wfd_abs. exact Hw.
  - rewrite (Hbad Hgt). exists bi. split; [reflexivity|].
    split; [rewrite <- (app_nil_r bi); eapply wire_not_nil; eauto|]. split; [reflexivity|].
    apply lit_after_wf. apply wfd_abs. exact Hw.
Qed.

Theorem hencode_overflow m t f dst r : wf t -> input_ok f -> chosen (inner t) f r ->
  ~ strings_within U32_MAX r -> traces t dst r (hencode m t f dst).
Proof.
  intros Hw Hf Hc Hs. destruct Hc as [i e He|i v fl e He|n v fl Hb|n v fl found Hb Hfind]; simpl in Hf; unfold hencode.
  - simpl in Hs. tauto.
  - destruct Hf as (_ & Hv & Hfl). simpl in Hs. eapply indexed_name_overflow; eauto.
    apply N.nle_gt. tauto.
  - destruct Hf as (Hn & Hv & Hfl). simpl in Hs.
    destruct (has_flag_bits fl Hfl) as (_ & _ & _ & _ & F16). rewrite F16, Hb.
    apply literal_overflow; auto. lia.
  - destruct Hf as (Hn & Hv & Hfl).
    destruct (has_flag_bits fl Hfl) as (_ & _ & _ & _ & F16). rewrite F16, Hb.
    destruct (@table_find_ok enc_error m t n v Hw) as (found' & -> & Hfind').
    assert (found' = found) as -> by (eapply find_spec_unique; eauto; reflexivity).
    cbn [bindd]. destruct found as [[i []]|]; simpl in Hfind.
    + simpl in Hs. tauto.
    + destruct Hfind as [[w He] _]. pose proof (lookup_index_small t i _ Hw He) as Hi.
      unfold wrap. rewrite N.mod_small by (change (2 ^ 28) with 268435456 in Hi; change (2 ^ 32) with 4294967296; lia).
      simpl in Hs. eapply indexed_name_overflow; eauto. apply N.nle_gt. tauto.
    + simpl in Hs. apply literal_overflow; auto. lia.
Qed.

Lemma within_dec max r : strings_within max r \/ ~ strings_within max r.
Proof.
  destruct r as [i|k [i|hn n] h v|n]; simpl; try tauto; lia.
Qed.

(* The three outcomes of encode. *)
Theorem hencode_cases m t f dst : wf t -> input_ok f ->
  (field_of (inner t) f = None /\ hencode m t f dst = ((t, dst), Err EInvalidIndex)) \/
  exists r, chosen (inner t) f r /\
    (strings_within U32_MAX r /\ encoded m t dst r (hencode m t f dst) \/
     ~ strings_within U32_MAX r /\ traces t dst r (hencode m t f dst)).
Proof.
  intros Hw Hf. destruct (field_of (inner t) f) eqn:E.
  - right. assert (H : field_of (inner t) f <> None) by congruence.
    apply chosen_iff in H as [r Hr]; [|exact Hw]. exists r. split; [exact Hr|].
    destruct (within_dec U32_MAX r) as [Hs|Hs].
    + left. split; [exact Hs|]. apply hencode_ok; auto.
    + right. split; [exact Hs|]. apply hencode_overflow; auto.
  - left. split; [reflexivity|]. apply hencode_refused; auto.
Qed.

Theorem hencode_wf m t f dst : wf t -> input_ok f -> wf (fst (fst (hencode m t f dst))).
Proof.
  intros Hw Hf. destruct (hencode_cases m t f dst Hw Hf) as [[_ ->]|(r & _ & [[_ H]|[_ H]])].
  - exact Hw.
  - destruct H as (bs & d' & hs & -> & _ & Hd & _). exact Hd.
  - destruct H as (d' & hs & junk & -> & _ & _ & Hd). exact Hd.
Qed.

Theorem hencode_no_panic m t f dst : wf t -> input_ok f ->
  exists dst', snd (fst (hencode m t f dst)) = dst ++ dst' /\
    (snd (hencode m t f dst) = Ok tt \/ snd (hencode m t f dst) = Err EInvalidIndex \/
     snd (hencode m t f dst) = Err EIntegerOverflow).
Proof.
  intros Hw Hf. destruct (hencode_cases m t f dst Hw Hf) as [[_ ->]|(r & _ & [[_ H]|[_ H]])].
  - exists []. simpl. rewrite app_nil_r. auto.
  - destruct H as (bs & d' & hs & -> & _ & Hd & _). exists bs. simpl. auto.
  - destruct H as (d' & hs & junk & -> & _ & _ & Hd). exists junk. simpl. auto.
Qed.

(* ------------------------------------------------------------------ *)
(* Table histories *)

Theorem run_table_ok {E} m ops : forall t, wf t -> Forall table_op_ok ops ->
  @run_table E m t ops = Ok (conc (table_meaning (abs t) ops)) /\ wf (conc (table_meaning (abs t) ops)).
Proof.
  induction ops as [|o ops IH]; intros t Hw Ho; simpl.
  - rewrite conc_abs by exact Hw. auto.
  - inversion Ho; subst. destruct o as [n v|n].
    + destruct (@table_insert_ok E m t n v Hw) as [-> Hw']. cbn [bind].
      destruct (IH _ Hw' H2) as [A B]. rewrite abs_conc in *. auto.
    + destruct (@table_update_ok E m t n Hw H1) as [-> Hw']. cbn [bind].
      destruct (IH _ Hw' H2) as [A B]. rewrite abs_conc in *. auto.
Qed.

Lemma fit_insert_big max e l : max < line_size e -> fit max (e :: l) = [].
Proof. intros H. simpl. replace (line_size e <=? max) with false by (symmetry; apply N.leb_gt; lia). reflexivity. Qed.

Lemma wfd_reach max ops : max < 2 ^ 32 -> Forall table_op_ok ops -> 
  wf (conc (table_meaning (mkdyn [] max) ops)).
Proof.
  intros Hm Ho. apply (@run_table_ok enc_error Debug ops (table_with_size max)); auto. apply wf_new. exact Hm.
Qed.

(* ------------------------------------------------------------------ *)
(* Reachable encoders *)
Theorem run_ops_wf m ops : forall t dst, wf t -> Forall op_typed ops ->
  wf (fst (fst (run_ops m t dst ops))) /\
  Forall (fun r => r = Ok tt \/ r = Err EInvalidIndex \/ r = Err EIntegerOverflow) (snd (run_ops m t dst ops)).
Proof.
  induction ops as [|o ops IH]; intros t dst Hw Ho; [simpl; auto|].
  apply Forall_inv_tail in Ho as Ho'. apply Forall_inv in Ho. cbn [run_ops].
  set (x := match o with Send f => hencode m t f dst | Resize n => encoder_update_max m t n dst end).
  assert (Hx : wf (fst (fst x)) /\ (snd x = Ok tt \/ snd x = Err EInvalidIndex \/ snd x = Err EIntegerOverflow)).
  { subst x. destruct o as [f|n]; simpl in Ho.
    - split; [apply hencode_wf; auto|]. destruct (hencode_no_panic m t f dst Hw Ho) as (z & _ & H). exact H.
    - destruct (encoder_update_ok m t n dst Hw Ho) as (bs & E & _ & _ & _ & H). rewrite E. simpl. auto. }
  clearbody x. destruct x as [[t' dst'] r]. simpl in Hx. destruct Hx as [Hw' Hr].
  specialize (IH t' dst' Hw' Ho'). destruct (run_ops m t' dst' ops) as [[t'' dst''] rs].
  simpl in *. destruct IH. auto.
Qed.

(* ------------------------------------------------------------------ *)
(* One field *)
Lemma exact_one m d bs rest r d' hs dst : wf (dtable d) -> bytes (bs ++ rest) ->
  repr_wire 5 code_padding bs r -> interp (dlimit d) (abs (dtable d)) r = inl (d', hs) ->
  is_size r = false ->
  hdecode_exact m 1 d (bs ++ rest) dst =
    ((set_table d (conc d'), rest, dst ++ hs), Ok (N.of_nat (length bs))).
Proof.
  intros Hw Hb Hr Hi Hs.
  pose proof (hdecode_exact_ok m 1 d [(bs, r)] rest d' hs Done dst Hw) as H.
  unfold wire_octets in H. cbn [map concat fst reprs snd interp_all counted fold_right] in H.
  rewrite app_nil_r in H. rewrite Hs in H. rewrite N.add_0_r in H. cbn [stop_outcome] in H.
  apply H; auto.
  - constructor; [exact Hr|constructor].
  - unfold reprs. cbn [map snd interp_all]. rewrite Hi, app_nil_r. reflexivity.
Qed.

Theorem one_field m m' t f dst d rest dst2 n v : wf t -> dtable d = t -> input_ok f -> sendable f ->
  field_of (inner t) f = Some (n, v) -> bytes rest ->
  exists bs, hencode m t f dst =
      ((conc (if flag_used (inner t) f =? 4 then insert (abs t) (n, v) else abs t), dst ++ bs), Ok tt) /\
    bytes bs /\
    hdecode_exact m' 1 d (bs ++ rest) dst2 =
      ((set_table d (conc (if flag_used (inner t) f =? 4 then insert (abs t) (n, v) else abs t)),
        rest, dst2 ++ [(n, v, flag_used (inner t) f)]), Ok (N.of_nat (length bs))).
Proof.
  intros Hw Hd Hf Hs Hn Hrest.
  destruct (proj1 (chosen_iff t f Hw)) as [r Hr]; [rewrite Hn; discriminate|].
  pose proof (sendable_within _ _ _ Hr Hs) as Hin.
  destruct (hencode_ok m t f dst r Hw Hf Hr (within_mono _ _ _ max_string_u32 Hin))
    as (bs & d' & hs & E & Hi & Hwf & _ & H5 & Hbs).
  specialize (H5 Hin).
  destruct (chosen_meaning (dlimit d) (abs t) f r Hr) as (n' & v' & Hn' & Hi').
  cbn [entries abs] in Hn'. rewrite Hn in Hn'. injection Hn' as <- <-.
  rewrite (Hi (dlimit d)) in Hi'. injection Hi' as -> ->. cbn [entries abs] in *.
  exists bs. split; [exact E|]. split; [exact Hbs|].
  apply exact_one with (r := r).
  - rewrite Hd. exact Hw.
  - apply Forall_app. auto.
  - eapply repr_wire_pad; [apply rfc_code_padding|exact H5].
  - rewrite Hd. apply Hi.
  - destruct Hr as [| | |? ? ? [[? []]|]]; reflexivity.
Qed.

(* ------------------------------------------------------------------ *)
(* Concatenation, speed *)
Theorem hdecode_concat m m' m'' d a b dst d1 rest dst1 k : wf (dtable d) -> bytes (a ++ b) ->
  hdecode m d a dst = ((d1, rest, dst1), Ok k) ->
  rest = [] /\
  hdecode m' d (a ++ b) dst =
    (fst (hdecode m'' d1 b dst1), add_count k (snd (hdecode m'' d1 b dst1))).
Proof.
  intros Hw Hb H.
  assert (Hr : rest = []).
  { destruct (hdecode_total m d a dst Hw) as (prs & r0 & d' & hs & s & E1 & _ & _ & E2 & _ & E3).
    { apply Forall_app in Hb. apply Hb. }
    rewrite H in E3. inversion E3 as [[A B C D]]. destruct s; simpl in D; try discriminate.
    - inversion E2. reflexivity.
    - destruct f; discriminate. }
  split; [exact Hr|]. subst rest.
  destruct (hdecode_split m m'' m' d a b dst Hw Hb) as (x1 & r1 & h1 & o1 & k' & x2 & r2 & dd & o2 & E1 & E2 & E3 & E4).
  rewrite H in E1. inversion E1; subst.
  rewrite <- (E4 k eq_refl) in *. simpl in E2. rewrite E2. exact E3.
Qed.

Lemma set_table_parts d t : dlimit (set_table d t) = dlimit d /\ dtable (set_table d t) = t.
Proof. split; reflexivity. Qed.

Theorem hdecode_speed m m' s s' lim t buf dst : wf t -> bytes buf ->
  exists t' rest hs o,
    hdecode m (mkDec s lim t) buf dst = ((mkDec s lim t', rest, dst ++ hs), o) /\
    hdecode m' (mkDec s' lim t) buf dst = ((mkDec s' lim t', rest, dst ++ hs), o).
Proof.
  intros Hw Hb.
  destruct (hdecode_total m (mkDec s lim t) buf dst Hw Hb) as (prs & r0 & d' & hs & st & -> & Hwr & Hi & He & _ & E).
  exists (conc d'), r0, hs, (stop_outcome st (counted prs)). split; [exact E|].
  exact (hdecode_ok m' (mkDec s' lim t) prs r0 d' hs st dst Hw Hb Hwr Hi He).
Qed.

Theorem hdecode_exact_speed m m' s s' lim cap t buf dst : wf t -> bytes buf ->
  exists t' rest hs o,
    hdecode_exact m cap (mkDec s lim t) buf dst = ((mkDec s lim t', rest, dst ++ hs), o) /\
    hdecode_exact m' cap (mkDec s' lim t) buf dst = ((mkDec s' lim t', rest, dst ++ hs), o).
Proof.
  intros Hw Hb.
  destruct (hdecode_exact_total m cap (mkDec s lim t) buf dst Hw Hb)
    as (prs & r0 & d' & hs & st & -> & Hwr & _ & Hi & He & _ & E).
  exists (conc d'), r0, hs, (stop_outcome st (counted prs)). split; [exact E|].
  exact (hdecode_exact_ok m' cap (mkDec s' lim t) prs r0 d' hs st dst Hw Hb Hwr Hi He).
Qed.

(* ------------------------------------------------------------------ *)
(* Refusals in the decoder *)
Theorem hdecode_refuses m d bs r e rest dst : wf (dtable d) -> bytes (bs ++ rest) ->
  repr_wire 5 code_padding bs r -> interp (dlimit d) (abs (dtable d)) r = inr e ->
  hdecode m d (bs ++ rest) dst = ((d, bs ++ rest, dst), Err (refusal_error e)).
Proof.
  intros Hw Hb Hr Hi.
  pose proof (hdecode_ok m d [] (bs ++ rest) (abs (dtable d)) [] (Refused e) dst Hw Hb) as H.
  unfold wire_octets in H. cbn [map concat] in H. rewrite app_nil_r in H. rewrite set_table_same in H by exact Hw.
  apply H; [constructor|reflexivity|econstructor; eauto].
Qed.

Theorem hdecode_bad_index m d bs i rest dst : wf (dtable d) -> bytes (bs ++ rest) ->
  lookup (inner (dtable d)) i = None ->
  (int_wire 5 7 1 bs i \/ (i <> 0 /\ exists k, int_wire 5 (kind_prefix k) (kind_bits k) bs i)) ->
  hdecode m d (bs ++ rest) dst = ((d, bs ++ rest, dst), Err DInvalidIndex).
Proof.
  intros Hw Hb Hl [Hi|(Hi0 & k & Hi)].
  - apply hdecode_refuses with (r := RIndexed i) (e := BadIndex); auto.
    + constructor. exact Hi.
    + simpl. rewrite Hl. reflexivity.
  - pose proof (hdecode_ok m d [] (bs ++ rest) (abs (dtable d)) [] (Fault BadName) dst Hw Hb) as H.
    unfold wire_octets in H. cbn [map concat] in H. rewrite app_nil_r in H. rewrite set_table_same in H by exact Hw.
    apply H; [constructor|reflexivity|]. constructor. eapply rf_bad_name; eauto.
Qed.

(* ------------------------------------------------------------------ *)
(* Flags *)
Lemma flag_used_never l n v fl :
  flag_used l (Literal n v fl) = 8 <->
  N.testbit fl 3 = true /\ N.testbit fl 2 = false /\ ~ (N.testbit fl 4 = true /\ has_line l (n, v) = true).
Proof.
  unfold flag_used, kind_of. destruct (N.testbit fl 4), (has_line l (n, v)), (N.testbit fl 2), (N.testbit fl 3);
    simpl; intuition discriminate.
Qed.

(* ------------------------------------------------------------------ *)
(* Too long a value: output and table are changed although an error is returned. *)
Theorem oversized_literal m t dst v : wf t -> bytes v -> 2 ^ 32 <= N.of_nat (length v) ->
  exists junk, junk <> [] /\
    hencode m t (Literal [] v 4) dst = ((mkDyn [] 0 (dmax t), dst ++ junk), Err EIntegerOverflow).
Proof.
  intros Hw Hv Hl.
  assert (Hin : input_ok (Literal [] v 4)) by (repeat split; [constructor|exact Hv]).
  assert (Hc : chosen (inner t) (Literal [] v 4) (RLiteral WithIndexing (NameLiteral false []) false v)).
  { exact (ch_literal (inner t) [] v 4 eq_refl). }
  destruct (hencode_overflow m t _ dst _ Hw Hin Hc) as (d' & hs & junk & E & Hj & Hi & _).
  { intros [H _]. unfold coded_length, U32_MAX in H. lia. }
  exists junk. split; [exact Hj|]. rewrite E.
  specialize (Hi 0). unfold interp in Hi. cbn [resolve] in Hi. injection Hi as <- _.
  unfold insert. cbn [abs max_size entries]. rewrite fit_insert_big; [reflexivity|].
  destruct Hw as (_ & _ & Hm). unfold line_size. cbn [fst snd length]. lia.
Qed.

(* ------------------------------------------------------------------ *)
(* Updates the encoder writes and the decoder cannot read. *)
Theorem large_update m m' t d n dst dst2 rest : wf t -> wf (dtable d) -> MAX_UPDATE < n -> n < 2 ^ 32 ->
  bytes rest ->
  exists bs, encoder_update_max m t n dst = ((conc (resize (abs t) n), dst ++ bs), Ok tt) /\
    hdecode m' d (bs ++ rest) dst2 = ((d, bs ++ rest, dst2), Err DIntegerOverflow).
Proof.
  intros Hw Hwd Hn Hn2 Hrest.
  destruct (encode_integer_ok n 32 5 dst p5 eq_refl Hn2) as (bs & E & Hwire & _ & H6 & _).
  exists bs. split.
  - unfold encoder_update_max. destruct (@table_update_ok enc_error m t n Hw Hn2) as [-> _].
    cbn [bindd]. rewrite E. reflexivity.
  - change (32 / 2 ^ 5) with 1 in Hwire. unfold MAX_UPDATE in Hn.
    specialize (H6 ltac:(change (2 ^ 5 - 1) with 31; lia)).
    assert (Hb : bytes (bs ++ rest)).
    { apply Forall_app. split; [|exact Hrest]. eapply (int_wire_bytes 6 5 1); [exact p5|reflexivity|exact Hwire]. }
    pose proof (hdecode_ok m' d [] (bs ++ rest) (abs (dtable d)) [] (Fault Long) dst2 Hwd Hb) as H.
    unfold wire_octets in H. cbn [map concat] in H. rewrite app_nil_r in H. rewrite (set_table_same d Hwd) in H.
    apply H; [constructor|reflexivity|]. constructor. apply rf_size. constructor.
    inversion Hwire as [|t0 r Ht Hlen]; subst.
    { simpl in H6. discriminate. }
    simpl in H6. injection H6 as H6.
    exists (firstn 4 t0), (skipn 4 t0 ++ rest). split; [|split].
    + rewrite app_assoc, firstn_skipn. reflexivity.
    + eapply leb_front; [exact Ht|lia].
    + rewrite firstn_length. lia.
Qed.

(* ------------------------------------------------------------------ *)
Lemma find_spec_ext g g' name value r : (forall i, g i = g' i) ->
  find_spec g name value r -> find_spec g' name value r.
Proof.
  intros E. destruct r as [[i []]|]; simpl.
  - intros [A B]. rewrite <- E. split; [exact A|]. intros j. rewrite <- E. apply B.
  - intros ([v A] & B & C). split; [exists v; rewrite <- E; exact A|].
    split; intros j; [intros w; rewrite <- E; apply B|rewrite <- E; apply C].
  - intros A j v. rewrite <- E. apply A.
Qed.

Lemma octets_bytes s : bytes (octets s).
Proof.
  induction s as [|c s IH]; simpl; constructor; [|exact IH].
  unfold is_byte. destruct c as [[] [] [] [] [] [] [] []]; reflexivity.
Qed.

Lemma insert_history m max es : max < 2 ^ 32 ->
  exists k, run_table m (table_with_size max) (map (fun e => TInsert (fst e) (snd e)) es) =
    Ok (E := enc_error) (mkDyn k (size k) max) /\ prefix k (rev es).
Proof.
  intros Hm.
  assert (G : forall es l p, prefix l p ->
    exists k, table_meaning (mkdyn l max) (map (fun e => TInsert (fst e) (snd e)) es) = mkdyn k max /\
      prefix k (rev es ++ p)).
  { clear es. induction es as [|[n v] es IH]; intros l p [x ->]; [exists l; split; [reflexivity|exists x; reflexivity]|].
    cbn [map table_meaning fst snd rev]. unfold insert. cbn [entries max_size].
    destruct (IH (fit max ((n, v) :: l)) ((n, v) :: l ++ x)) as (k & E & H).
    { destruct (fit_prefix max ((n, v) :: l)) as [y Hy]. exists (y ++ x). rewrite app_assoc, <- Hy. reflexivity. }
    exists k. split; [exact E|]. rewrite <- app_assoc. exact H. }
  destruct (G es [] []) as (k & E & H); [exists []; reflexivity|]. rewrite app_nil_r in H.
  exists k. split; [|exact H].
  destruct (@run_table_ok enc_error m (map (fun e => TInsert (fst e) (snd e)) es) _ (wf_new max Hm)) as [R _].
  { apply Forall_forall. intros o Ho. apply in_map_iff in Ho as (e & <- & _). exact I. }
  rewrite R. change (abs (table_with_size max)) with (mkdyn [] max). rewrite E. reflexivity.
Qed.

Lemma chosen_unique l f r1 r2 : chosen l f r1 -> chosen l f r2 -> r1 = r2.
Proof.
  intros H1 H2. destruct H1; inversion H2; subst; try reflexivity; try congruence.
  assert (found = found0) as -> by (eapply find_spec_unique; eauto; reflexivity). reflexivity.
Qed.

Lemma overflow_only m t f dst : wf t -> input_ok f ->
  (snd (hencode m t f dst) = Ok tt \/ snd (hencode m t f dst) = Err EInvalidIndex \/
   snd (hencode m t f dst) = Err EIntegerOverflow) /\
  (snd (hencode m t f dst) = Err EIntegerOverflow <->
   exists r, chosen (inner t) f r /\ ~ strings_within (2 ^ 32 - 1) r).
Proof.
  intros Hw Hf.
  destruct (hencode_cases m t f dst Hw Hf) as [[H1 H2]|(r & Hr & [(Hs & bs & d' & hs & E & _)|(Hs & d' & hs & j & E & _)])].
  - rewrite H2. split; [auto|]. split; [discriminate|]. intros (r & Hr & _).
    exfalso. apply (proj2 (chosen_iff t f Hw)); eauto.
  - rewrite E. split; [auto|]. split; [discriminate|]. intros (r' & Hr' & Hs').
    rewrite (chosen_unique _ _ _ _ Hr' Hr) in Hs'. contradiction.
  - rewrite E. split; [auto|]. split; [|reflexivity]. intros _. exists r. auto.
Qed.

Lemma hdecode_count m d buf dst d1 rest dst1 n : wf (dtable d) -> bytes buf ->
  hdecode m d buf dst = ((d1, rest, dst1), Ok n) ->
  exists prs, buf = wire_octets prs /\ rest = [] /\ wires 5 code_padding prs /\ n = counted prs /\
    (n = N.of_nat (length buf) <-> forallb (fun r => negb (is_size r)) (reprs prs) = true).
Proof.
  intros Hw Hb H.
  destruct (hdecode_total m d buf dst Hw Hb) as (prs & r0 & d' & hs & s & E1 & Hp & _ & E2 & _ & E3).
  rewrite H in E3. pose proof (f_equal snd E3) as D. pose proof (f_equal (fun z => snd (fst (fst z))) E3) as R.
  cbn [fst snd] in D, R. clear E3.
  destruct s as [|f|e]; cbn [stop_outcome] in D; try discriminate D; [|destruct f; discriminate D].
  assert (R0 : r0 = []) by (inversion E2; reflexivity). injection D as Dn. rewrite R0 in E1, R. rewrite app_nil_r in E1.
  exists prs. split; [exact E1|]. split; [exact R|]. split; [exact Hp|]. split; [exact Dn|]. split.
  - intros Hn. destruct (forallb (fun r => negb (is_size r)) (reprs prs)) eqn:F; [reflexivity|].
    pose proof (counted_lt prs Hp F). rewrite E1 in Hn. lia.
  - intros F. rewrite E1, Dn. apply counted_no_size. exact F.
Qed.

Lemma exact_one_error m d buf dst st e : wf (dtable d) -> bytes buf ->
  hdecode_exact m 1 d buf dst = (st, Err e) -> st = (d, buf, dst).
Proof.
  intros Hw Hb H.
  destruct (hdecode_exact_total m 1 d buf dst Hw Hb) as (prs & r0 & d' & hs & s & E1 & _ & Hl & Hi & [[_ ->]|[Hlt _]] & _ & E3).
  - rewrite H in E3. inversion E3.
  - destruct prs; [|simpl in Hlt; lia]. simpl in Hi. injection Hi as <- <-.
    rewrite H in E3. unfold wire_octets in E1. simpl in E1. subst r0.
    rewrite app_nil_r, (set_table_same d Hw) in E3. inversion E3. reflexivity.
Qed.

Lemma limit_enforced m d lim bs n rest dst : wf (dtable d) -> bytes (bs ++ rest) ->
  int_wire 5 5 1 bs n ->
  hdecode_exact m 1 (decoder_set_max d lim) (bs ++ rest) dst =
    if n <=? lim
    then ((mkDec (dspeed d) lim (conc (resize (abs (dtable d)) n)), rest, dst), Ok 0)
    else ((decoder_set_max d lim, bs ++ rest, dst), Err DInvalidMaxDynamicSize).
Proof.
  intros Hw Hb Hi. destruct (n <=? lim) eqn:L.
  - pose proof (hdecode_exact_ok m 1 (decoder_set_max d lim) [(bs, RSize n)] rest
      (resize (abs (dtable d)) n) [] Done dst Hw) as H.
    unfold wire_octets, reprs in H. cbn [map concat fst snd interp_all counted fold_right is_size] in H.
    rewrite !app_nil_r in H. apply H; auto.
    + repeat constructor. exact Hi.
    + unfold interp. cbn [dlimit dtable decoder_set_max]. rewrite L. reflexivity.
  - pose proof (hdecode_exact_ok m 1 (decoder_set_max d lim) [] (bs ++ rest)
      (abs (dtable d)) [] (Refused BadSize) dst Hw) as H.
    unfold wire_octets in H. cbn [map concat] in H. rewrite !app_nil_r in H.
    change (abs (dtable d)) with (abs (dtable (decoder_set_max d lim))) in H.
    rewrite (set_table_same (decoder_set_max d lim) Hw) in H. apply H; auto.
    + constructor.
    + right. split; [auto|]. apply ends_refused with (r := RSize n); [constructor; exact Hi|].
      unfold interp. cbn [dlimit decoder_set_max]. rewrite L. reflexivity.
Qed.

(* ------------------------------------------------------------------ *)
(* The wire format is unambiguous. *)
Lemma app_same_length {A} (a b x y : list A) : length a = length b -> a ++ x = b ++ y -> a = b /\ x = y.
Proof.
  revert b. induction a as [|u a IH]; intros [|w b] L E; simpl in *; try discriminate; [auto|].
  injection L as L. injection E as -> E. destruct (IH b L E). subst. auto.
Qed.

Lemma string_wire_unique pad h h' a b s s' x y :
  string_wire 5 pad h a s -> string_wire 5 pad h' b s' -> a ++ x = b ++ y ->
  h = h' /\ a = b /\ s = s' /\ x = y.
Proof.
  intros H1 H2 E.
  destruct H1 as [la sa Ia|la ha sa ra Ia Ba Sa Pa]; destruct H2 as [lb sb Ib|lb hb sb rb Ib Bb Sb Pb];
    rewrite <- !app_assoc in E;
    destruct (int_wire_unique 7 _ _ _ _ _ _ _ _ _ _ p7 Ia Ib E) as (-> & L & E' & Hh); try discriminate Hh;
    apply Nnat.Nat2N.inj in L; destruct (app_same_length _ _ _ _ L E') as [-> ->].
  - auto.
  - destruct (splits_unique _ _ _ _ _ Sa Sb) as [-> _]. auto.
Qed.

Lemma wire_class lim p hi bs v rest : prefix_ok p -> int_wire lim p hi bs v -> bytes (bs ++ rest) ->
  hd 0 (bs ++ rest) / 2 ^ p = hi /\ hd 0 (bs ++ rest) < 256.
Proof.
  intros Hp H Hb. split; [symmetry; eapply wire_hd; eauto|].
  pose proof (int_wire_len _ _ _ _ _ H). destruct bs as [|b bs]; [simpl in *; lia|].
  apply Forall_inv in Hb. exact Hb.
Qed.

Lemma class_excl b : b < 256 ->
  (b / 2 ^ 7 = 1 -> b / 2 ^ 6 <> 1 /\ b / 2 ^ 5 <> 1 /\ b / 2 ^ 4 <> 1 /\ b / 2 ^ 4 <> 0) /\
  (b / 2 ^ 6 = 1 -> b / 2 ^ 5 <> 1 /\ b / 2 ^ 4 <> 1 /\ b / 2 ^ 4 <> 0) /\
  (b / 2 ^ 5 = 1 -> b / 2 ^ 4 <> 1 /\ b / 2 ^ 4 <> 0).
Proof.
  intros H.
  change (2 ^ 7) with 128. change (2 ^ 6) with 64. change (2 ^ 5) with 32. change (2 ^ 4) with 16.
  pose proof (N.div_mod b 128). pose proof (N.div_mod b 64). pose proof (N.div_mod b 32). pose proof (N.div_mod b 16).
  pose proof (N.mod_lt b 128). pose proof (N.mod_lt b 64). pose proof (N.mod_lt b 32). pose proof (N.mod_lt b 16).
  repeat split; intros; lia.
Qed.

Definition lead (r : repr) : N * N :=
  match r with
  | RIndexed _ => (7, 1)
  | RLiteral k _ _ _ => (kind_prefix k, kind_bits k)
  | RSize _ => (5, 1)
  end.
Definition lead_value (r : repr) : N :=
  match r with
  | RIndexed i => i
  | RLiteral _ (NameIndex i) _ _ => i
  | RLiteral _ (NameLiteral _ _) _ _ => 0
  | RSize n => n
  end.

Lemma repr_lead lim pad bs r : repr_wire lim pad bs r ->
  exists bi tl, bs = bi ++ tl /\ int_wire lim (fst (lead r)) (snd (lead r)) bi (lead_value r).
Proof.
  intros [bs' i H|k bi i hv bv v H Hi Hv|k bi hn bn n hv bv v H Hn Hv|bs' n H]; simpl;
    [exists bs', []|exists bi, bv|exists bi, (bn ++ bv)|exists bs', []]; rewrite ?app_nil_r; auto.
Qed.

Lemma lead_prefix r : prefix_ok (fst (lead r)).
Proof. destruct r as [|[]|]; simpl; unfold prefix_ok; lia. Qed.

Lemma lead_unique r r' b : b < 256 -> b / 2 ^ fst (lead r) = snd (lead r) -> b / 2 ^ fst (lead r') = snd (lead r') ->
  lead r = lead r' /\ (forall i, r = RIndexed i -> exists j, r' = RIndexed j) /\
  (forall n, r = RSize n -> exists j, r' = RSize j) /\
  (forall k n h v, r = RLiteral k n h v -> exists n' h' v', r' = RLiteral k n' h' v').
Proof.
  intros Hb. destruct (class_excl b Hb) as (A & B & C).
  destruct r as [i|[] n h v|n]; destruct r' as [i'|[] n' h' v'|n']; simpl; intros H1 H2;
    try (exfalso; tauto);
    try (exfalso; rewrite H1 in H2; discriminate);
    (split; [reflexivity|]); repeat split; intros; try discriminate; eauto;
    match goal with H : RLiteral _ _ _ _ = _ |- _ => injection H as <- <- <- <-; eauto end.
Qed.

Theorem repr_wire_unique pad a r x b r' y :
  repr_wire 5 pad a r -> repr_wire 5 pad b r' -> bytes (a ++ x) -> a ++ x = b ++ y ->
  a = b /\ r = r' /\ x = y.
Proof.
  intros H1 H2 Hb E.
  destruct (repr_lead _ _ _ _ H1) as (bi & tl & Ea & W1). destruct (repr_lead _ _ _ _ H2) as (bj & tl' & Eb & W2).
  assert (E' := E). rewrite Ea, Eb, <- !app_assoc in E'.
  assert (Hb1 : bytes (bi ++ tl ++ x)) by (rewrite app_assoc, <- Ea; exact Hb).
  destruct (wire_class _ _ _ _ _ _ (lead_prefix r) W1 Hb1) as [D1 L].
  assert (Hb2 : bytes (bj ++ tl' ++ y)) by (rewrite <- E'; exact Hb1).
  destruct (wire_class _ _ _ _ _ _ (lead_prefix r') W2 Hb2) as [D2 _].
  rewrite E' in D1, L.
  destruct (lead_unique r r' _ L D1 D2) as (_ & U1 & U2 & U3).
  clear E' Hb1 Hb2 D1 D2 L W1 W2 Ea Eb bi bj tl tl'.
  destruct H1 as [bs i I1|k bs i hv bv v I1 Ni Sv|k bs hn bn n hv bv v I1 Sn Sv|bs n I1].
  - destruct (U1 i eq_refl) as [j ->]. inversion H2 as [bs' i' I2| | |]; subst b.
    destruct (int_wire_unique _ _ _ _ _ _ _ _ _ _ _ p7 I1 I2 E) as (-> & -> & -> & _). auto.
  - destruct (U3 k _ _ _ eq_refl) as (n' & h' & v' & ->).
    inversion H2 as [|k' bs' i' hv' bv' w' I2 Ni' Sv'|k' bs' hn' bn' m' hv' bv' w' I2 Sn' Sv'|]; subst;
      rewrite <- !app_assoc in E;
      destruct (int_wire_unique _ _ _ _ _ _ _ _ _ _ _ (kp_ok k) I1 I2 E) as (-> & -> & E2 & _); [|congruence].
    destruct (string_wire_unique _ _ _ _ _ _ _ _ _ Sv Sv' E2) as (-> & -> & -> & ->). auto.
  - destruct (U3 k _ _ _ eq_refl) as (n' & h' & v' & ->).
    inversion H2 as [|k' bs' i' hv' bv' w' I2 Ni' Sv'|k' bs' hn' bn' m' hv' bv' w' I2 Sn' Sv'|]; subst;
      rewrite <- !app_assoc in E;
      destruct (int_wire_unique _ _ _ _ _ _ _ _ _ _ _ (kp_ok k) I1 I2 E) as (-> & Ei & E2 & _); [congruence|].
    destruct (string_wire_unique _ _ _ _ _ _ _ _ _ Sn Sn' E2) as (-> & -> & -> & E3).
    destruct (string_wire_unique _ _ _ _ _ _ _ _ _ Sv Sv' E3) as (-> & -> & -> & ->). auto.
  - destruct (U2 n eq_refl) as [j ->]. inversion H2 as [| | |bs' i' I2]; subst b.
    destruct (int_wire_unique _ _ _ _ _ _ _ _ _ _ _ p5 I1 I2 E) as (-> & -> & -> & _). auto.
Qed.

(* ------------------------------------------------------------------ *)
(* When an error leaves everything as it was. *)
Lemma untouched_when m d buf dst d1 rest dst1 e : wf (dtable d) -> bytes buf ->
  hdecode m d buf dst = ((d1, rest, dst1), Err e) ->
  (rest = buf <-> (d1, rest, dst1) = (d, buf, dst)) /\
  (rest = buf <-> snd (hdecode_exact m 1 d buf dst) = Err e) /\
  (rest <> buf <-> exists n, snd (hdecode_exact m 1 d buf dst) = Ok n).
Proof.
  intros Hw Hb H.
  destruct (hdecode_total m d buf dst Hw Hb) as (prs & r0 & d' & hs & s & E1 & Hp & Hi & He & _ & E3).
  rewrite H in E3. injection E3 as -> -> -> Es. destruct prs as [|[b r] prs].
  - unfold wire_octets in E1. cbn [map concat app] in E1. subst r0.
    cbn [reprs map interp_all] in Hi. injection Hi as <- <-.
    assert (X : hdecode_exact m 1 d buf dst = ((set_table d (conc (abs (dtable d))), buf, dst ++ []), stop_outcome s 0)).
    { apply (hdecode_exact_ok m 1 d [] buf (abs (dtable d)) [] s dst); auto. }
    rewrite X. cbn [snd]. rewrite app_nil_r, (set_table_same d Hw).
    assert (Es' : stop_outcome s 0 = Err e).
    { unfold counted in Es. cbn in Es. symmetry. exact Es. }
    rewrite Es'. split; [tauto|]. split; [tauto|]. split; [congruence|]. intros [n Hn]. discriminate.
  - assert (Hne : r0 <> buf).
    { intros ->. apply (f_equal (@length N)) in E1. rewrite app_length in E1.
      unfold wire_octets in E1. cbn [map concat fst] in E1. rewrite app_length in E1.
      inversion Hp as [|? ? Hw1 _]; subst. cbn [fst snd] in Hw1.
      apply repr_wire_nonempty in Hw1. lia. }
    assert (Hx : exists n, snd (hdecode_exact m 1 d buf dst) = Ok n).
    { change ((b, r) :: prs) with ([(b, r)] ++ prs) in *. unfold reprs in Hi.
      rewrite map_app, interp_all_app in Hi. fold (reprs [(b, r)]) (reprs prs) in Hi.
      destruct (interp_all (dlimit d) (abs (dtable d)) (reprs [(b, r)])) as [[d2 h2]|] eqn:E2; [|discriminate].
      rewrite wire_octets_app, <- app_assoc in E1. apply Forall_app in Hp as [Hp1 _].
      rewrite E1, (hdecode_exact_ok m 1 d [(b, r)] (wire_octets prs ++ r0) d2 h2 Done dst); auto;
        [|rewrite E1 in Hb; exact Hb].
      cbn [snd stop_outcome]. eauto. }
    split; [split; [tauto|]; intros Q; injection Q; auto|].
    split; [split; [tauto|]; intros Q; destruct Hx as [n Hn]; congruence|]. tauto.
Qed.

Lemma overflow_effect m t f dst : wf t -> input_ok f ->
  snd (hencode m t f dst) = Err EIntegerOverflow ->
  exists r d' hs junk, chosen (inner t) f r /\ (forall limit, interp limit (abs t) r = inl (d', hs)) /\
    junk <> [] /\ fst (hencode m t f dst) = (conc d', dst ++ junk).
Proof.
  intros Hw Hf H. destruct (hencode_cases m t f dst Hw Hf) as [[_ E]|(r & Hr & [[_ X]|[_ X]])].
  - rewrite E in H. discriminate.
  - destruct X as (bs & d' & hs & E & _). rewrite E in H. discriminate.
  - destruct X as (d' & hs & junk & E & Hj & Hi & _). rewrite E. exists r, d', hs, junk. auto.
Qed.

Lemma never_reported m m' t n v fl dst d rest dst2 : wf t -> dtable d = t ->
  input_ok (Literal n v fl) -> sendable (Literal n v fl) -> bytes rest ->
  exists t' bs flags,
    hencode m t (Literal n v fl) dst = ((t', dst ++ bs), Ok tt) /\
    hdecode_exact m' 1 d (bs ++ rest) dst2 =
      ((set_table d t', rest, dst2 ++ [(n, v, flags)]), Ok (N.of_nat (length bs))) /\
    (flags = 8 <-> N.testbit fl 3 = true /\ N.testbit fl 2 = false /\
                   ~ (N.testbit fl 4 = true /\ exists i, table_get t i = Some (n, v))) /\
    (flags = 8 -> t' = t).
Proof.
  intros Hw Hd Hf Hs Hr.
  destruct (one_field m m' t _ dst d rest dst2 n v Hw Hd Hf Hs eq_refl Hr) as (bs & E1 & _ & E3).
  eexists _, bs, _. split; [exact E1|]. split; [exact E3|]. split.
  - rewrite flag_used_never, has_line_lookup.
    assert (Q : (exists i, lookup (inner t) i = Some (n, v)) <-> exists i, table_get t i = Some (n, v)).
    { split; intros [i Hi]; exists i; [now rewrite get_lookup|now rewrite <- get_lookup]. }
    now rewrite Q.
  - intros ->. change (8 =? 4) with false. cbv iota. now apply conc_abs.
Qed.

(* ------------------------------------------------------------------ *)
(* The maximum after a block: the last update in it. *)
Definition updates_of (rs : list repr) : list N := flat_map (fun r => match r with RSize n => [n] | _ => [] end) rs.
Lemma last_cons_default {A} (x : A) l d : last (x :: l) d = last l x.
Proof. revert x d. induction l as [|y l IH]; intros x d; [reflexivity|]. change (last (y :: l) d = last (y :: l) x). now rewrite !IH. Qed.
Lemma repr_max limit d r d' hs : interp limit d r = inl (d', hs) ->
  max_size d' = last (updates_of [r]) (max_size d) /\ Forall (fun n => n <= limit) (updates_of [r]).
Proof.
  destruct r as [i|k n h v|n]; cbn [interp]; intros H.
  - destruct (lookup (entries d) i) as [[a b]|]; [|discriminate]. injection H as <- _. split; [reflexivity|constructor].
  - destruct (resolve d n); [|discriminate]. injection H as <- _. split; [now destruct k|constructor].
  - destruct (N.leb_spec n limit); [|discriminate]. injection H as <- _. split; [reflexivity|]. cbn. auto.
Qed.
Lemma block_max limit rs : forall d d' hs, interp_all limit d rs = Some (d', hs) ->
  max_size d' = last (updates_of rs) (max_size d) /\ Forall (fun n => n <= limit) (updates_of rs).
Proof.
  induction rs as [|r rs IH]; intros d d' hs H; cbn [interp_all] in H.
  - injection H as <- _. split; [reflexivity|constructor].
  - destruct (interp limit d r) as [[d1 h1]|] eqn:E; [|discriminate].
    destruct (interp_all limit d1 rs) as [[d2 h2]|] eqn:E2; [|discriminate]. injection H as <- _.
    apply repr_max in E as [E F]. apply IH in E2 as [E2 F2]. destruct r as [i|k n h v|n].
    + change (updates_of [RIndexed i]) with (@nil N) in E. change (updates_of (RIndexed i :: rs)) with (updates_of rs).
      split; [cbn [last] in E; congruence|exact F2].
    + change (updates_of [RLiteral k n h v]) with (@nil N) in E. change (updates_of (RLiteral k n h v :: rs)) with (updates_of rs).
      split; [cbn [last] in E; congruence|exact F2].
    + change (updates_of [RSize n]) with [n] in *. change (updates_of (RSize n :: rs)) with (n :: updates_of rs).
      split; [rewrite last_cons_default; cbn [last] in E; congruence|]. inversion F; subst; now constructor.
Qed.
Theorem reported_history m d buf dst d1 rest dst1 o : wf (dtable d) -> bytes buf ->
  hdecode m d buf dst = ((d1, rest, dst1), o) ->
  exists prs, buf = wire_octets prs ++ rest /\ wires 5 code_padding prs /\
    let updates := flat_map (fun r => match r with RSize n => [n] | _ => [] end) (map snd prs) in
    decoder_max_dynamic_size d1 = last updates (decoder_max_dynamic_size d) /\
    Forall (fun n => n <= dlimit d) updates /\ dlimit d1 = dlimit d.
Proof.
  intros Hw Hb H. destruct (hdecode_total m d buf dst Hw Hb) as (prs & r0 & d' & hs & s & E1 & Hp & Hi & _ & _ & E2).
  rewrite H in E2. injection E2 as Ed Er _ _. exists prs. rewrite Er. split; [exact E1|]. split; [exact Hp|].
  apply block_max in Hi as [Hm Hf]. cbv zeta. fold (updates_of (map snd prs)). rewrite Ed.
  split; [exact Hm|]. split; [exact Hf|reflexivity].
Qed.
