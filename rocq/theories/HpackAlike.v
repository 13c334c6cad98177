(* Which decoders can be told apart by decoding (C95). *)
From Verif Require Import Base HuffTables HuffModel HuffSpec Leb HpackStatic HpackModel
  HpackSpec HpackApi HpackInt HpackStr HpackTab HpackDec HpackEnc HpackDerived HpackMore HpackRetain.
Open Scope list_scope.
Open Scope N_scope.

(* ------------------------------------------------------------------ *)
(* Specification vocabulary. *)

(* What a caller sees of a call: the octets left, the headers and the result. *)
Definition answer (x : dec_state * outcome dec_error N) : list N * list out_header * outcome dec_error N :=
  let '((_, rest, hs), o) := x in (rest, hs, o).
(* Two decoders that answer every block alike. *)
Definition alike (m : mode) (d1 d2 : decoder) : Prop :=
  forall buf dst, bytes buf -> answer (hdecode m d1 buf dst) = answer (hdecode m d2 buf dst).
(* The same entries; the same limit, as far as an update can express it; and the same
   maximum, unless both are too small for any entry. *)
Definition same_state (d1 d2 : decoder) : Prop :=
  inner (dtable d1) = inner (dtable d2) /\
  N.min (dlimit d1) MAX_UPDATE = N.min (dlimit d2) MAX_UPDATE /\
  (dmax (dtable d1) = dmax (dtable d2) \/ dmax (dtable d1) < 32 /\ dmax (dtable d2) < 32).

(* ------------------------------------------------------------------ *)
(* Same state, same answers. *)
Definition sim (d1 d2 : dyn) : Prop :=
  entries d1 = entries d2 /\ (max_size d1 = max_size d2 \/ max_size d1 < 32 /\ max_size d2 < 32).

Lemma fit_tiny max e l : max < 32 -> fit max (e :: l) = [].
Proof. intros H. cbn [fit]. rewrite (proj2 (N.leb_gt _ _)); [reflexivity|]. pose proof (line_size_pos e). lia. Qed.
Lemma sim_insert d1 d2 e : sim d1 d2 -> sim (insert d1 e) (insert d2 e).
Proof.
  intros [E M]. unfold insert, sim. cbn [entries max_size]. split; [|exact M]. destruct M as [M|[M1 M2]]; [now rewrite E, M|].
  now rewrite !fit_tiny.
Qed.
Lemma sim_interp l1 l2 d1 d2 bs r : sim d1 d2 -> N.min l1 MAX_UPDATE = N.min l2 MAX_UPDATE ->
  repr_wire 5 code_padding bs r ->
  match interp l1 d1 r, interp l2 d2 r with
  | inl (a, h), inl (b, h') => sim a b /\ h = h'
  | inr e, inr e' => e = e'
  | _, _ => False
  end.
Proof.
  intros Hs Hl Hr. pose proof Hs as [E M]. destruct r as [i|k nr h v|n]; cbn [interp].
  - rewrite E. destruct (lookup (entries d2) i) as [[n v]|]; auto.
  - assert (R : resolve d1 nr = resolve d2 nr) by (destruct nr; cbn [resolve]; [now rewrite E|reflexivity]).
    rewrite R. destruct (resolve d2 nr) as [n|]; [|reflexivity]. split; [|reflexivity]. destruct k; auto. now apply sim_insert.
  - assert (Hn : n <= MAX_UPDATE).
    { inversion Hr; subst. assert (P : n < 2 ^ 5 - 1 + 2 ^ 28) by (apply (int_wire_bound 5 1 bs); [unfold prefix_ok; lia|assumption]).
      unfold MAX_UPDATE. lia. }
    assert (B : (n <=? l1) = (n <=? l2)).
    { destruct (N.leb_spec n l1), (N.leb_spec n l2); try reflexivity; exfalso; lia. }
    rewrite B. destruct (n <=? l2); [|reflexivity]. split; [|reflexivity]. unfold resize, sim. cbn [entries max_size].
    rewrite E. auto.
Qed.
Lemma sim_interp_all l1 l2 prs : forall d1 d2 a h, sim d1 d2 -> N.min l1 MAX_UPDATE = N.min l2 MAX_UPDATE ->
  wires 5 code_padding prs -> interp_all l1 d1 (reprs prs) = Some (a, h) ->
  exists b, interp_all l2 d2 (reprs prs) = Some (b, h) /\ sim a b.
Proof.
  induction prs as [|[bs r] prs IH]; intros d1 d2 a h Hs Hl Hp E.
  - cbn in E. injection E as <- <-. exists d2. split; [reflexivity|exact Hs].
  - inversion Hp as [|? ? Hr Hp']; subst. cbn [fst snd] in Hr. cbn [reprs map snd interp_all] in *. fold (reprs prs) in *.
    pose proof (sim_interp l1 l2 d1 d2 bs r Hs Hl Hr) as S.
    destruct (interp l1 d1 r) as [[a1 h1]|]; [|discriminate]. destruct (interp l2 d2 r) as [[b1 h1']|]; [|contradiction].
    destruct S as [S <-]. destruct (interp_all l1 a1 (reprs prs)) as [[a2 h2]|] eqn:E2; [|discriminate]. injection E as <- <-.
    destruct (IH a1 b1 a2 h2 S Hl Hp' E2) as (b & Eb & Sb). exists b. now rewrite Eb.
Qed.
Lemma sim_ends l1 l2 a b rest s : sim a b -> N.min l1 MAX_UPDATE = N.min l2 MAX_UPDATE -> ends l1 a rest s -> ends l2 b rest s.
Proof.
  intros Hs Hl He. destruct He as [|rest f Hf|bs r rest e Hr Hi].
  - constructor.
  - constructor. destruct Hs as [<- _]. exact Hf.
  - apply (ends_refused l2 b bs r rest e Hr). pose proof (sim_interp l1 l2 a b bs r Hs Hl Hr) as S. rewrite Hi in S.
    destruct (interp l2 b r) as [[? ?]|]; [contradiction|now subst].
Qed.

Theorem same_state_decode m m' d1 d2 buf dst : wf (dtable d1) -> wf (dtable d2) -> same_state d1 d2 -> bytes buf ->
  answer (hdecode m d1 buf dst) = answer (hdecode m' d2 buf dst) /\
  same_state (fst (fst (fst (hdecode m d1 buf dst)))) (fst (fst (fst (hdecode m' d2 buf dst)))) /\
  wf (dtable (fst (fst (fst (hdecode m d1 buf dst))))) /\ wf (dtable (fst (fst (fst (hdecode m' d2 buf dst))))).
Proof.
  intros W1 W2 (E & L & M) Hb.
  destruct (hdecode_total m d1 buf dst W1 Hb) as (prs & rest & a & hs & s & Eb & Hp & Hi & He & Hw & ED).
  assert (S : sim (abs (dtable d1)) (abs (dtable d2))) by (split; assumption).
  destruct (sim_interp_all _ (dlimit d2) prs _ _ a hs S L Hp Hi) as (b & Ei2 & Sb).
  pose proof (sim_ends _ _ a b rest s Sb L He) as He2.
  assert (Hb2 : bytes (wire_octets prs ++ rest)) by now rewrite <- Eb.
  pose proof (hdecode_ok m' d2 prs rest b hs s dst W2 Hb2 Hp Ei2 He2) as ED2. rewrite <- Eb in ED2.
  rewrite ED, ED2. cbn [answer fst]. split; [reflexivity|]. destruct Sb as [Es Ms]. split.
  - unfold same_state. cbn [dtable dlimit set_table inner dmax conc]. auto.
  - split; [exact Hw|]. apply (interp_all_wf (dlimit d2) prs (abs (dtable d2)) b hs); auto.
    unfold wfd. now rewrite conc_abs.
Qed.

(* ------------------------------------------------------------------ *)
(* Different states: a block that tells them apart. *)
Lemma index_octets i : i < 2 ^ 28 -> exists bs, int_wire 5 7 1 bs i /\ bytes bs.
Proof.
  intros Hi. destruct (encode_integer_ok i 128 7 []) as (bs & _ & Hw & Hl & _); [unfold prefix_ok; lia|lia|lia|].
  exists bs. assert (L : (List.length bs <= 5)%nat) by (apply Hl; lia). change (128 / 2 ^ 7) with 1 in Hw. split.
  - apply (int_wire_le 6 5); assumption.
  - apply (int_wire_bytes 6 7 1 bs i); [unfold prefix_ok; lia|lia|exact Hw].
Qed.
Lemma update_octets n : n <= MAX_UPDATE -> exists bs, int_wire 5 5 1 bs n /\ bytes bs.
Proof.
  unfold MAX_UPDATE. intros Hn. destruct (encode_integer_ok n 32 5 []) as (bs & _ & Hw & Hl & _); [unfold prefix_ok; lia|lia|lia|].
  exists bs. assert (L : (List.length bs <= 5)%nat) by (apply Hl; lia). change (32 / 2 ^ 5) with 1 in Hw. split.
  - apply (int_wire_le 6 5); assumption.
  - apply (int_wire_bytes 6 5 1 bs n); [unfold prefix_ok; lia|lia|exact Hw].
Qed.

(* Decoding a reference. *)
Lemma decode_reference m d bs i dst : wf (dtable d) -> bytes bs -> int_wire 5 7 1 bs i ->
  answer (hdecode m d bs dst) =
    match lookup (inner (dtable d)) i with
    | Some (n, v) => ([], dst ++ [(n, v, 0)], Ok (N.of_nat (List.length bs)))
    | None => (bs, dst, Err DInvalidIndex)
    end.
Proof.
  intros Hw Hb Hi. assert (Hr : repr_wire 5 code_padding bs (RIndexed i)) by now constructor.
  destruct (lookup (inner (dtable d)) i) as [[n v]|] eqn:E.
  - pose proof (hdecode_ok m d [(bs, RIndexed i)] [] (abs (dtable d)) [(n, v, 0)] Done dst Hw) as H.
    unfold wire_octets in H. cbn [map fst concat reprs snd interp_all interp abs entries] in H. rewrite !app_nil_r, E in H. cbn [app] in H.
    specialize (H Hb (Forall_cons (bs, RIndexed i) Hr (Forall_nil _)) eq_refl (ends_done _ _)). rewrite H.
    unfold answer, stop_outcome, counted. cbn [fold_right snd fst is_size]. now rewrite N.add_0_r.
  - rewrite (hdecode_stop m d bs (Refused BadIndex) dst Hw Hb); [reflexivity|].
    rewrite <- (app_nil_r bs). apply ends_refused with (RIndexed i); [exact Hr|]. cbn [interp abs entries]. now rewrite E.
Qed.

Lemma alike_lookup m d1 d2 i : wf (dtable d1) -> wf (dtable d2) -> alike m d1 d2 -> i < 2 ^ 28 ->
  lookup (inner (dtable d1)) i = lookup (inner (dtable d2)) i.
Proof.
  intros W1 W2 H Hi. destruct (index_octets i Hi) as (bs & Hw & Hb). specialize (H bs [] Hb).
  rewrite (decode_reference m d1 bs i [] W1 Hb Hw), (decode_reference m d2 bs i [] W2 Hb Hw) in H.
  destruct (lookup (inner (dtable d1)) i) as [[n v]|], (lookup (inner (dtable d2)) i) as [[n' v']|]; cbn [app] in H; try discriminate H; [|reflexivity].
  injection H as -> ->. reflexivity.
Qed.
Lemma nth_error_ext {A} (a b : list A) : (forall k, nth_error a k = nth_error b k) -> a = b.
Proof.
  revert b. induction a as [|x a IH]; intros [|y b] H; [reflexivity|specialize (H 0%nat); discriminate|specialize (H 0%nat); discriminate|].
  pose proof (H 0%nat) as H0. injection H0 as ->. f_equal. apply IH. intros k. exact (H (S k)).
Qed.
Lemma alike_entries m d1 d2 : wf (dtable d1) -> wf (dtable d2) -> alike m d1 d2 -> inner (dtable d1) = inner (dtable d2).
Proof.
  intros W1 W2 H. pose proof (wf_length _ W1) as L1. pose proof (wf_length _ W2) as L2. apply nth_error_ext. intros k.
  change (2 ^ 27) with 134217728 in *.
  destruct (N.le_gt_cases (N.of_nat k) 134217728) as [Hk|Hk].
  - pose proof (alike_lookup m d1 d2 (62 + N.of_nat k) W1 W2 H) as E. rewrite !lookup_dynamic, Nat2N.id in E. apply E.
    change (2 ^ 28) with 268435456. lia.
  - rewrite !(proj2 (nth_error_None _ _)) by lia. reflexivity.
Qed.

(* Decoding an update. *)
Lemma decode_update m d bs n dst : wf (dtable d) -> bytes bs -> int_wire 5 5 1 bs n ->
  answer (hdecode m d bs dst) = if n <=? dlimit d then ([], dst, Ok 0) else (bs, dst, Err DInvalidMaxDynamicSize).
Proof.
  intros Hw Hb Hi. assert (Hr : repr_wire 5 code_padding bs (RSize n)) by now constructor.
  destruct (n <=? dlimit d) eqn:E.
  - pose proof (hdecode_ok m d [(bs, RSize n)] [] (resize (abs (dtable d)) n) [] Done dst Hw) as H.
    unfold wire_octets in H. cbn [map fst concat reprs snd interp_all interp] in H. rewrite !app_nil_r, E in H. cbn [app] in H.
    specialize (H Hb (Forall_cons (bs, RSize n) Hr (Forall_nil _)) eq_refl (ends_done _ _)). now rewrite H.
  - rewrite (hdecode_stop m d bs (Refused BadSize) dst Hw Hb); [reflexivity|].
    rewrite <- (app_nil_r bs). apply ends_refused with (RSize n); [exact Hr|]. cbn [interp]. now rewrite E.
Qed.
Lemma alike_limit m d1 d2 : wf (dtable d1) -> wf (dtable d2) -> alike m d1 d2 -> N.min (dlimit d1) MAX_UPDATE <= N.min (dlimit d2) MAX_UPDATE.
Proof.
  intros W1 W2 H. destruct (update_octets (N.min (dlimit d1) MAX_UPDATE)) as (bs & Hw & Hb); [lia|].
  specialize (H bs [] Hb). rewrite (decode_update m d1 bs _ [] W1 Hb Hw), (decode_update m d2 bs _ [] W2 Hb Hw) in H.
  rewrite (proj2 (N.leb_le (N.min (dlimit d1) MAX_UPDATE) (dlimit d1))) in H by lia.
  destruct (N.min (dlimit d1) MAX_UPDATE <=? dlimit d2) eqn:E; [|discriminate H]. apply N.leb_le in E. lia.
Qed.

(* Filling a table: an entry of 32 + r octets, then q entries of 32. *)
Definition filler (r : N) : list N * repr :=
  ([64; 0; r] ++ repeat 0 (N.to_nat r), RLiteral WithIndexing (NameLiteral false []) false (repeat 0 (N.to_nat r))).
Definition filling (q : nat) (r : N) : list (list N * repr) := filler r :: repeat (filler 0) q.

Lemma filler_wire r : r < 32 -> repr_wire 5 code_padding (fst (filler r)) (snd (filler r)).
Proof.
  intros Hr. unfold filler. cbn [fst snd].
  change ([64; 0; r] ++ repeat 0 (N.to_nat r)) with ([64] ++ [0] ++ ([r] ++ repeat 0 (N.to_nat r))).
  apply wire_new_name.
  - apply (int_short 5 6 1 0); [reflexivity|lia].
  - change [0] with ([0] ++ @nil N). apply (string_plain 5 code_padding [0] []). apply (int_short 5 7 0 0); [reflexivity|lia].
  - apply string_plain. rewrite repeat_length, N2Nat.id. apply (int_short 5 7 0 r); [change (2 ^ 7 - 1) with 127; lia|lia].
Qed.
Lemma repeat_bytes n : bytes (repeat 0 n).
Proof. induction n; cbn [repeat]; constructor; [reflexivity|assumption]. Qed.
Lemma filler_bytes r : r < 32 -> bytes (fst (filler r)).
Proof.
  intros Hr. unfold filler. cbn [fst]. repeat (constructor; [unfold is_byte; lia|]). apply repeat_bytes.
Qed.
Lemma filling_wires q r : r < 32 -> wires 5 code_padding (filling q r) /\ bytes (wire_octets (filling q r)).
Proof.
  intros Hr. unfold filling, wires, wire_octets. cbn [map concat fst]. split.
  - constructor; [now apply filler_wire|]. apply Forall_forall. intros x Hx. apply repeat_spec in Hx. subst x. now apply filler_wire.
  - apply Forall_app. split; [now apply filler_bytes|]. induction q as [|q IH]; cbn [repeat map concat]; [constructor|].
    apply Forall_app. split; [now apply filler_bytes|exact IH].
Qed.
Definition filled (q : nat) (r : N) : list field_line := repeat ([], []) q ++ [([], repeat 0 (N.to_nat r))].
Lemma size_repeat q : size (repeat ([], []) q) = 32 * N.of_nat q.
Proof. induction q as [|q IH]; [reflexivity|]. cbn [repeat size]. rewrite IH. change (line_size ([], [])) with 32. lia. Qed.
Lemma size_filled q r : size (filled q r) = 32 * N.of_nat (S q) + r.
Proof.
  unfold filled. rewrite size_app, size_repeat. cbn [size line_size fst snd List.length]. unfold line_size. cbn [fst snd List.length].
  rewrite repeat_length. lia.
Qed.
Lemma filling_interp limit q r d : exists d' hs, interp_all limit d (reprs (filling q r)) = Some (d', hs) /\ stored hs = filled q r.
Proof.
  assert (G : forall q d, exists d' hs, interp_all limit d (reprs (repeat (filler 0) q)) = Some (d', hs) /\ stored hs = repeat ([], []) q).
  { clear. induction q as [|q IH]; intros d; [exists d, []; split; reflexivity|].
    cbn [repeat reprs map snd filler interp_all interp resolve]. fold (reprs (repeat (filler 0) q)).
    destruct (IH (insert d ([], repeat 0 (N.to_nat 0)))) as (d' & hs & E & Es). rewrite E. eexists _, _. split; [reflexivity|].
    rewrite stored_app, Es. change (N.to_nat 0) with 0%nat. cbn [repeat kind_flag]. unfold stored. cbn [filter snd N.eqb map fst rev app].
    change ([] : list N, [] : list N) with ((@nil N, @nil N)). symmetry.
    change ((@nil N, @nil N) :: repeat (@nil N, @nil N) q) with (repeat (@nil N, @nil N) (S q)).
    rewrite <- Nat.add_1_r, repeat_app. reflexivity. }
  unfold filling. cbn [reprs map snd filler interp_all interp resolve]. fold (reprs (repeat (filler 0) q)).
  destruct (G q (insert d ([], repeat 0 (N.to_nat r)))) as (d' & hs & E & Es). rewrite E. eexists _, _. split; [reflexivity|].
  rewrite stored_app, Es. reflexivity.
Qed.

Lemma alike_max m d1 d2 : wf (dtable d1) -> wf (dtable d2) -> alike m d1 d2 -> dmax (dtable d1) < dmax (dtable d2) -> dmax (dtable d2) < 32.
Proof.
  intros W1 W2 H Hlt. destruct (N.lt_ge_cases (dmax (dtable d2)) 32) as [|Hge]; [assumption|exfalso].
  set (M := dmax (dtable d2)) in *. set (q := N.to_nat (M / 32 - 1)). set (r := M mod 32).
  assert (Hr : r < 32) by (apply N.mod_lt; lia).
  assert (HM : M = 32 * N.of_nat (S q) + r).
  { unfold q, r. pose proof (N.div_mod M 32). assert (1 <= M / 32) by (apply N.div_le_lower_bound; lia). lia. }
  assert (Hmax : M < 2 ^ 32) by apply W2.
  destruct (filling_wires q r Hr) as [Hw Hb].
  assert (Hi : 62 + N.of_nat q < 2 ^ 28) by (change (2 ^ 32) with 4294967296 in Hmax; change (2 ^ 28) with 268435456; lia).
  destruct (index_octets (62 + N.of_nat q) Hi) as (bs & Hwi & Hbi).
  assert (HB : bytes (wire_octets (filling q r) ++ bs)) by (now apply Forall_app).
  assert (K : forall d, wf (dtable d) -> exists d' hs,
    wf (dtable d') /\ inner (dtable d') = fit (dmax (dtable d)) (filled q r ++ inner (dtable d)) /\
    answer (hdecode m d (wire_octets (filling q r) ++ bs) []) =
      let '(rest, dst, o) := answer (hdecode m d' bs hs) in (rest, dst, add_count (counted (filling q r)) o)).
  { intros d W. destruct (filling_interp (dlimit d) q r (abs (dtable d))) as (x & hs & Ei & Es).
    pose proof (hdecode_ok m d (filling q r) [] x hs Done [] W) as E. rewrite app_nil_r in E.
    specialize (E Hb Hw Ei (ends_done _ _)). cbn [stop_outcome app] in E.
    exists (set_table d (conc x)), hs. split; [|split].
    - apply (interp_all_wf (dlimit d) (filling q r) (abs (dtable d)) x hs); auto. unfold wfd. now rewrite conc_abs.
    - cbn [dtable set_table inner conc].
      destruct (interp_all_retain (dlimit d) (reprs (filling q r)) (abs (dtable d)) x hs) as [_ R]; [|exact Ei|apply W|].
      + apply Forall_forall. intros y Hy. unfold reprs, filling in Hy. cbn [map] in Hy. destruct Hy as [<-|Hy]; [reflexivity|].
        apply in_map_iff in Hy. destruct Hy as (z & <- & Hz). apply repeat_spec in Hz. now subst z.
      + rewrite R, Es. reflexivity.
    - destruct (hdecode_concat m m m d (wire_octets (filling q r)) bs [] _ _ _ _ W HB E) as [_ E2]. rewrite E2.
      destruct (hdecode m (set_table d (conc x)) bs hs) as [[[y ry] dy] oy]. cbn [answer fst snd]. reflexivity. }
  destruct (K d1 W1) as (e1 & hs1 & We1 & I1 & A1). destruct (K d2 W2) as (e2 & hs2 & We2 & I2 & A2).
  specialize (H _ [] HB). rewrite A1, A2 in H.
  rewrite (decode_reference m e1 bs _ hs1 We1 Hbi Hwi), (decode_reference m e2 bs _ hs2 We2 Hbi Hwi) in H.
  rewrite !lookup_dynamic, Nat2N.id in H.
  assert (Lf : List.length (filled q r) = S q) by (unfold filled; rewrite app_length, repeat_length; cbn; lia).
  assert (N2 : nth_error (inner (dtable e2)) q <> None).
  { rewrite I2. intros F. apply nth_error_None in F.
    destruct (fit_fits (dmax (dtable d2)) (filled q r ++ inner (dtable d2))) as (_ & _ & B).
    specialize (B (filled q r)). rewrite Lf in B. assert (S q <= List.length (fit (dmax (dtable d2)) (filled q r ++ inner (dtable d2))))%nat; [|lia].
    apply B; [now exists (inner (dtable d2))|]. rewrite size_filled. fold M. lia. }
  assert (N1 : nth_error (inner (dtable e1)) q = None).
  { rewrite I1. apply nth_error_None. destruct (Nat.le_gt_cases (List.length (fit (dmax (dtable d1)) (filled q r ++ inner (dtable d1)))) q) as [|G]; [assumption|exfalso].
    destruct (fit_prefix (dmax (dtable d1)) (filled q r ++ inner (dtable d1))) as [t T].
    pose proof (fit_size (dmax (dtable d1)) (filled q r ++ inner (dtable d1))) as Sz.
    set (F := fit (dmax (dtable d1)) (filled q r ++ inner (dtable d1))) in *.
    assert (P : firstn (S q) F = filled q r).
    { rewrite <- (firstn_all2 (n := S q) (filled q r)) by lia.
      transitivity (firstn (S q) (filled q r ++ inner (dtable d1))).
      - rewrite T, firstn_app. replace (S q - List.length F)%nat with 0%nat by lia. now rewrite firstn_O, app_nil_r.
      - rewrite firstn_app, Lf, Nat.sub_diag, firstn_O, app_nil_r. now rewrite firstn_all2 by lia. }
    assert (Q : size F = size (filled q r) + size (skipn (S q) F)) by (rewrite <- P, <- size_app, firstn_skipn; reflexivity).
    rewrite size_filled in Q. lia. }
  rewrite N1 in H. destruct (nth_error (inner (dtable e2)) q) as [[n v]|]; [|now apply N2]. discriminate H.
Qed.

Theorem alike_iff m d1 d2 : wf (dtable d1) -> wf (dtable d2) -> (alike m d1 d2 <-> same_state d1 d2).
Proof.
  intros W1 W2. split.
  - intros H. assert (H' : alike m d2 d1) by (intros buf dst Hb; symmetry; now apply H).
    split; [now apply (alike_entries m)|]. split.
    + pose proof (alike_limit m d1 d2 W1 W2 H). pose proof (alike_limit m d2 d1 W2 W1 H'). lia.
    + pose proof (alike_max m d1 d2 W1 W2 H). pose proof (alike_max m d2 d1 W2 W1 H'). lia.
  - intros S buf dst Hb. now apply same_state_decode.
Qed.

(* ------------------------------------------------------------------ *)
(* Whole histories of calls. *)
Theorem same_state_exact m m' cap d1 d2 buf dst : wf (dtable d1) -> wf (dtable d2) -> same_state d1 d2 -> bytes buf ->
  answer (hdecode_exact m cap d1 buf dst) = answer (hdecode_exact m' cap d2 buf dst) /\
  same_state (fst (fst (fst (hdecode_exact m cap d1 buf dst)))) (fst (fst (fst (hdecode_exact m' cap d2 buf dst)))) /\
  wf (dtable (fst (fst (fst (hdecode_exact m cap d1 buf dst))))) /\ wf (dtable (fst (fst (fst (hdecode_exact m' cap d2 buf dst))))).
Proof.
  intros W1 W2 (E & L & M) Hb.
  destruct (hdecode_exact_total m cap d1 buf dst W1 Hb) as (prs & rest & a & hs & s & Eb & Hp & _ & Hi & He & Hw & ED).
  assert (S : sim (abs (dtable d1)) (abs (dtable d2))) by (split; assumption).
  destruct (sim_interp_all _ (dlimit d2) prs _ _ a hs S L Hp Hi) as (b & Ei2 & Sb).
  assert (He2 : List.length prs = cap /\ s = Done \/ (List.length prs < cap)%nat /\ ends (dlimit d2) b rest s).
  { destruct He as [He|[He1 He]]; [now left|right]. split; [exact He1|]. exact (sim_ends _ _ a b rest s Sb L He). }
  assert (Hb2 : bytes (wire_octets prs ++ rest)) by now rewrite <- Eb.
  pose proof (hdecode_exact_ok m' cap d2 prs rest b hs s dst W2 Hb2 Hp Ei2 He2) as ED2. rewrite <- Eb in ED2.
  rewrite ED, ED2. cbn [answer fst]. split; [reflexivity|]. destruct Sb as [Es Ms]. split.
  - unfold same_state. cbn [dtable dlimit set_table inner dmax conc]. auto.
  - split; [exact Hw|]. apply (interp_all_wf (dlimit d2) prs (abs (dtable d2)) b hs); auto.
    unfold wfd. now rewrite conc_abs.
Qed.

(* What the calls of a history answer, in order. *)
Fixpoint call_answers (m : mode) (d : decoder) (cs : list call) : list (list N * list out_header * outcome dec_error N) :=
  match cs with
  | [] => []
  | c :: cs' =>
      match c with
      | CallDecode buf dst => [answer (hdecode m d buf dst)]
      | CallExact cap buf dst => [answer (hdecode_exact m cap d buf dst)]
      | CallLimit _ => []
      end ++ call_answers m (do_call m d c) cs'
  end.
Theorem same_state_calls m m' cs : forall d1 d2, wf (dtable d1) -> wf (dtable d2) -> same_state d1 d2 -> Forall call_ok cs ->
  call_answers m d1 cs = call_answers m' d2 cs.
Proof.
  induction cs as [|c cs IH]; intros d1 d2 W1 W2 S Hc; [reflexivity|]. inversion Hc as [|? ? C1 C2]; subst.
  cbn [call_answers]. destruct c as [buf dst|cap buf dst|n]; cbn [call_ok do_call] in *.
  - destruct (same_state_decode m m' d1 d2 buf dst W1 W2 S C1) as (A & S' & W1' & W2'). rewrite A. f_equal. now apply IH.
  - destruct (same_state_exact m m' cap d1 d2 buf dst W1 W2 S C1) as (A & S' & W1' & W2'). rewrite A. f_equal. now apply IH.
  - cbn [app]. apply IH; auto. destruct S as (E & _ & M). split; [exact E|split; [reflexivity|exact M]].
Qed.
