(* The protobuf stream decoder. *)
From Verif Require Import Base Leb ProtosModel ProtosSpec ProtosApi ProtosNum ProtosEnc.
Open Scope N_scope.

Lemma drain_app a rest : pdrain (a ++ rest) (N.of_nat (length a)) = rest.
Proof. unfold pdrain. rewrite Nat2N.id, skipn_app, Nat.sub_diag, skipn_all. reflexivity. Qed.

(* ------------------------------------------------------------------ *)
(* Keys. *)
Lemma typ_of_number t n : n < 8 -> typ_of n = t <->
  match t with
  | Unknown => n = 3 \/ n = 4 \/ n = 6 \/ n = 7
  | _ => wire_number t n
  end.
Proof.
  intros Hn. unfold typ_of.
  assert (H : n = 0 \/ n = 1 \/ n = 2 \/ n = 3 \/ n = 4 \/ n = 5 \/ n = 6 \/ n = 7) by lia.
  destruct H as [-> | [-> | [-> | [-> | [-> | [-> | [-> | ->]]]]]]]; cbn; destruct t; cbn;
    split; intros; try discriminate; try reflexivity; try lia.
Qed.

Lemma key_split k : k < 2 ^ 32 -> N.shiftr (wrap 32 k) 3 = k / 8 /\ N.land k 7 = k mod 8.
Proof.
  intros H. unfold wrap. rewrite N.mod_small by exact H. rewrite N.shiftr_div_pow2.
  change 7 with (2 ^ 3 - 1). rewrite land_ones_mod. auto.
Qed.

Lemma pdecode_key_ok m bs tag t n rest : reads m bs (8 * tag + n) -> wire_number t n -> 1 <= tag < 2 ^ 29 ->
  pdecode_key m (bs ++ rest) = Ok (tag, t, N.of_nat (length bs)).
Proof.
  intros Hr Hn Ht. unfold pdecode_key. rewrite (pdecode_varint_value m bs _ rest Hr). cbn [bind].
  pose proof (wire_number_num t n Hn) as [_ Hn8]. change (2 ^ 29) with 536870912 in *.
  replace (2 ^ 32 - 1 <? 8 * tag + n) with false.
  2:{ symmetry. apply N.ltb_ge. change (2 ^ 32 - 1) with 4294967295. lia. }
  destruct (key_split (8 * tag + n)) as [E1 E2]; [change (2 ^ 32) with 4294967296; lia|].
  rewrite E1, E2. replace ((8 * tag + n) / 8) with tag by (rewrite N.mul_comm, N.div_add_l, N.div_small; lia).
  replace ((8 * tag + n) mod 8) with n by (rewrite N.add_comm, N.mul_comm, N.mod_add, N.mod_small; lia).
  unfold TAG_MIN. replace (tag <? 1) with false by (symmetry; apply N.ltb_ge; lia).
  assert (E : typ_of n = t) by (apply typ_of_number; [exact Hn8|]; destruct t; auto; contradiction).
  rewrite E. destruct t; try reflexivity. contradiction.
Qed.

Lemma pdecode_key_bad m bs k rest : reads m bs k -> bad_key k -> pdecode_key m (bs ++ rest) = Err PInvalidInput.
Proof.
  intros Hr Hb. unfold pdecode_key. rewrite (pdecode_varint_value m bs _ rest Hr). cbn [bind].
  destruct (N.ltb_spec (2 ^ 32 - 1) k) as [H|H]; [reflexivity|].
  assert (Hk : k < 2 ^ 32) by (change (2 ^ 32) with 4294967296; change (2 ^ 32 - 1) with 4294967295 in H; lia).
  destruct (key_split k Hk) as [-> ->]. unfold TAG_MIN.
  destruct (N.ltb_spec (k / 8) 1) as [H1|H1]; [reflexivity|].
  destruct Hb as [Hb|[Hb|Hb]]; [lia|lia|].
  assert (E : typ_of (k mod 8) = Unknown) by (apply typ_of_number; [apply N.mod_lt; lia|exact Hb]).
  now rewrite E.
Qed.

Lemma key_cases m bs k : reads m bs k ->
  (exists tag t n, k = 8 * tag + n /\ wire_number t n /\ 1 <= tag < 2 ^ 29) \/ bad_key k.
Proof.
  intros Hr. destruct (N.lt_ge_cases k (2 ^ 32)) as [Hk|Hk]; [|right; now left].
  destruct (N.eq_dec (k / 8) 0) as [H0|H0]; [right; right; now left|].
  assert (Hm : k mod 8 < 8) by (apply N.mod_lt; lia).
  pose proof (N.div_mod k 8) as D. assert (Hd : k / 8 < 2 ^ 29).
  { apply N.div_lt_upper_bound; [lia|]. exact Hk. }
  destruct (typ_of (k mod 8)) eqn:E; apply typ_of_number in E; auto;
    try (left; exists (k / 8), Varint, (k mod 8); repeat split; [lia|exact E|lia|exact Hd]);
    try (left; exists (k / 8), Bit64, (k mod 8); repeat split; [lia|exact E|lia|exact Hd]);
    try (left; exists (k / 8), LengthDelimited, (k mod 8); repeat split; [lia|exact E|lia|exact Hd]);
    try (left; exists (k / 8), Bit32, (k mod 8); repeat split; [lia|exact E|lia|exact Hd]).
  right; right; now right.
Qed.

(* ------------------------------------------------------------------ *)
(* extract_varint *)
Lemma extract_loop_ok bs v rest : leb128 bs v -> forall acc i,
  extract_varint_loop (bs ++ rest) acc i = Ok (acc ++ bs, i + N.of_nat (length bs)).
Proof.
  induction 1 as [b Hb|b bs v Hb Hl IH]; intros acc i; cbn [app extract_varint_loop length].
  - now replace (b <=? 127) with true by lia.
  - replace (128 + b <=? 127) with false by lia. rewrite IH, <- app_assoc. do 2 f_equal. lia.
Qed.

Lemma extract_loop_short t : continued t -> forall acc i, extract_varint_loop t acc i = Err PInputUnderflow.
Proof.
  induction 1 as [|b t Hb Hc IH]; intros acc i; cbn [extract_varint_loop]; [reflexivity|].
  now replace (b <=? 127) with false by lia.
Qed.

(* ------------------------------------------------------------------ *)
(* One step. *)
Lemma item_step m p bs p1 h rest dst : item m p bs p1 h ->
  pstep m (decoder_of p, bs ++ rest, dst) = ((decoder_of p1, rest, dst ++ h), Ok (N.of_nat (length bs))).
Proof.
  intros H. destruct H as [bs tag t n Hr Hn Ht | tag bs (v & Hv) | tag bs Hl | tag bs Hl | tag bs n Hr | tag n bs Hl];
    unfold pstep; cbn [fst decoder_of ptyp pdecoder_default].
  - unfold step_key. rewrite (pdecode_key_ok m bs tag t n rest Hr Hn Ht). rewrite drain_app, app_nil_r. reflexivity.
  - unfold step_extract, prim_extract_varint. rewrite (extract_loop_ok bs v rest Hv). cbn [app].
    rewrite N.add_0_l, drain_app. reflexivity.
  - unfold step_extract, prim_extract_bit32. rewrite app_length.
    replace (N.of_nat (length bs + length rest) <? 4) with false by lia.
    rewrite firstn_app, Hl, Nat.sub_diag, firstn_O, app_nil_r, <- Hl, firstn_all.
    change 4 with (N.of_nat 4) at 1. rewrite <- Hl at 1. rewrite drain_app. now rewrite Hl.
  - unfold step_extract, prim_extract_bit64. rewrite app_length.
    replace (N.of_nat (length bs + length rest) <? 8) with false by lia.
    rewrite firstn_app, Hl, Nat.sub_diag, firstn_O, app_nil_r, <- Hl, firstn_all.
    change 8 with (N.of_nat 8) at 1. rewrite <- Hl at 1. rewrite drain_app. now rewrite Hl.
  - unfold step_ld, step_len. cbn [fst pld]. rewrite (pdecode_varint_value m bs n rest Hr).
    rewrite drain_app, app_nil_r. reflexivity.
  - unfold step_ld, step_extract, prim_extract_ld. cbn [fst pld]. subst n. rewrite app_length.
    replace (N.of_nat (length bs + length rest) <? N.of_nat (length bs)) with false by lia.
    rewrite Nat2N.id, firstn_app, Nat.sub_diag, firstn_O, app_nil_r, firstn_all, drain_app. reflexivity.
Qed.

Lemma halt_step m p rest dst o : halt m p rest o ->
  pstep m (decoder_of p, rest, dst) = ((decoder_of p, rest, dst), with_count 0 o).
Proof.
  intros H. destruct H as [p rest Hw | bs k x Hr Hb | p bs x -> Hp Hc Hn Hx].
  - destruct p as [|tag [| | | |]|tag n]; cbn [waiting] in Hw; unfold pstep; cbn [fst decoder_of ptyp pdecoder_default with_count].
    + unfold step_key, pdecode_key. rewrite (pdecode_varint_short m rest Hw). reflexivity.
    + unfold step_extract, prim_extract_varint. now rewrite (extract_loop_short rest Hw).
    + unfold step_extract, prim_extract_bit64. now replace (N.of_nat (length rest) <? 8) with true by lia.
    + unfold step_ld, step_len. cbn [fst pld]. rewrite (pdecode_varint_short m rest Hw). reflexivity.
    + unfold step_extract, prim_extract_bit32. now replace (N.of_nat (length rest) <? 4) with true by lia.
    + contradiction.
    + unfold step_ld, step_extract, prim_extract_ld. cbn [fst pld].
      now replace (N.of_nat (length rest) <? n) with true by lia.
  - unfold pstep. cbn [fst decoder_of ptyp pdecoder_default with_count]. unfold step_key.
    now rewrite (pdecode_key_bad m bs k x Hr Hb).
  - assert (Hl : overlong Debug (bs ++ x)) by (split; [reflexivity|eauto 8]).
    destruct Hp as [->|(tag & ->)]; unfold pstep; cbn [fst decoder_of ptyp pdecoder_default with_count].
    + unfold step_key, pdecode_key. rewrite (pdecode_varint_long Debug _ Hl). reflexivity.
    + unfold step_ld, step_len. cbn [fst pld]. rewrite (pdecode_varint_long Debug _ Hl). reflexivity.
Qed.

(* Every state and input allow an item of at least one octet, or the input ends
   the call. *)
Definition sane (p : pending) : Prop :=
  match p with
  | Start => True
  | GotKey tag t => 1 <= tag < 2 ^ 29 /\ t <> Unknown
  | GotLen tag len => 1 <= tag < 2 ^ 29 /\ len < 2 ^ 64
  end.

Lemma idle_sane p : idle p -> sane p.
Proof. destruct p; cbn; tauto. Qed.

Lemma item_sane m p bs p1 h : item m p bs p1 h -> sane p -> sane p1.
Proof.
  destruct 1; cbn; auto; intros Hs.
  - split; [assumption|]. destruct t; discriminate || contradiction.
  - destruct Hs as [Hs _]. split; [assumption|]. eapply reads_bound; eauto.
Qed.

Lemma next_item m p b : bytes b -> sane p ->
  (exists bs p1 h rest, b = bs ++ rest /\ item m p bs p1 h /\ bs <> []) \/
  (exists o, halt m p b o) \/ (exists tag, p = GotLen tag 0).
Proof.
  intros Hb Hp. destruct p as [|tag t|tag n]; cbn [sane] in Hp.
  - destruct (varint_cases m b Hb) as [(bs & v & rest & -> & Hr)|[Hs|(Hm & bs & x & -> & Hc & Hn & Hx)]].
    + destruct (key_cases m bs v Hr) as [(tag & t & n & -> & Hn & Ht)|Hbad].
      * left. exists bs, (GotKey tag t), [], rest. split; [reflexivity|].
        split; [econstructor; eauto | eapply reads_nonempty; eauto].
      * right; left. exists (Err PInvalidInput). now apply halt_bad_key with v.
    + right; left. exists (Ok tt). now constructor.
    + right; left. exists Panic. apply halt_long; auto.
  - destruct Hp as [_ Hp]. destruct t; try congruence.
    + destruct (leb_or_continued b Hb) as [(bs & v & rest & -> & Hl)|Hc].
      * left. exists bs, Start, [(tag, Varint, bs)], rest. split; [reflexivity|].
        split; [constructor; now exists v | eapply leb_nonempty; eauto].
      * right; left. exists (Ok tt). now constructor.
    + destruct (Nat.le_gt_cases 8 (length b)) as [H|H].
      * left. exists (firstn 8 b), Start, [(tag, Bit64, firstn 8 b)], (skipn 8 b).
        split; [now rewrite firstn_skipn|]. split; [constructor; rewrite firstn_length; lia|].
        destruct b; [simpl in H; lia|discriminate].
      * right; left. exists (Ok tt). now constructor.
    + destruct (varint_cases m b Hb) as [(bs & v & rest & -> & Hr)|[Hs|(Hm & bs & x & -> & Hc & Hn & Hx)]].
      * left. exists bs, (GotLen tag v), [], rest. split; [reflexivity|].
        split; [now constructor | eapply reads_nonempty; eauto].
      * right; left. exists (Ok tt). now constructor.
      * right; left. exists Panic. apply halt_long; eauto.
    + destruct (Nat.le_gt_cases 4 (length b)) as [H|H].
      * left. exists (firstn 4 b), Start, [(tag, Bit32, firstn 4 b)], (skipn 4 b).
        split; [now rewrite firstn_skipn|]. split; [constructor; rewrite firstn_length; lia|].
        destruct b; [simpl in H; lia|discriminate].
      * right; left. exists (Ok tt). now constructor.
  - destruct (N.eq_dec n 0) as [->|H0]; [right; right; eauto|].
    destruct (N.lt_ge_cases (N.of_nat (length b)) n) as [H|H].
    + right; left. exists (Ok tt). now constructor.
    + left. exists (firstn (N.to_nat n) b), Start, [(tag, LengthDelimited, firstn (N.to_nat n) b)], (skipn (N.to_nat n) b).
      split; [now rewrite firstn_skipn|]. split; [constructor; rewrite firstn_length; lia|].
      intros E. apply (f_equal (@length N)) in E. rewrite firstn_length in E. cbn [length] in E. lia.
Qed.

(* ------------------------------------------------------------------ *)
(* One call of decode. *)
Lemma items_sane m ne p a p1 hs : items m ne p a p1 hs -> sane p -> sane p1.
Proof. induction 1; intros; auto. eauto using item_sane. Qed.

Lemma items_app m ne p a p1 hs b p2 hs' : items m ne p a p1 hs -> items m ne p1 b p2 hs' -> items m ne p (a ++ b) p2 (hs ++ hs').
Proof.
  induction 1 as [|p bs p1 h bs' p3 hs Hi Hne H IH]; intros H'; [exact H'|].
  rewrite <- !app_assoc. econstructor; eauto.
Qed.

Lemma items_one m ne p bs p1 h : item m p bs p1 h -> (ne = true -> bs <> []) -> items m ne p bs p1 h.
Proof.
  intros H Hne. rewrite <- (app_nil_r bs), <- (app_nil_r h). econstructor; eauto. constructor.
Qed.

Lemma items_weaken m p a p1 hs : items m true p a p1 hs -> items m false p a p1 hs.
Proof. induction 1; econstructor; eauto. Qed.

Lemma call_run m n p b : (length b <= n)%nat -> bytes b -> sane p ->
  exists a p1 hs rest p2 hs2 o, b = a ++ rest /\ items m true p a p1 hs /\ call_ends m p1 rest p2 hs2 o.
Proof.
  revert p b. induction n as [|n IH]; intros p b Hn Hb Hp;
    destruct (next_item m p b Hb Hp) as [(bs & p1 & h & rest & -> & Hi & Hne)|[(o & Ho)|(tag & ->)]].
  - destruct bs; [congruence|simpl in Hn; lia].
  - exists [], p, [], b, p, [], o. split; [reflexivity|]. split; [constructor|]. now constructor.
  - exists [], (GotLen tag 0), [], b, Start, [(tag, LengthDelimited, [])], (Ok tt).
    split; [reflexivity|]. split; constructor.
  - apply bytes_app in Hb as [_ Hb].
    destruct (IH p1 rest) as (a & p3 & hs & rest' & p2 & hs2 & o & -> & Ha & Hc); auto.
    { rewrite app_length in Hn. destruct bs; [congruence|simpl in Hn; lia]. }
    { eapply item_sane; eauto. }
    exists (bs ++ a), p3, (h ++ hs), rest', p2, hs2, o. split; [now rewrite app_assoc|]. split; [|exact Hc].
    econstructor; eauto.
  - exists [], p, [], b, p, [], o. split; [reflexivity|]. split; [constructor|]. now constructor.
  - exists [], (GotLen tag 0), [], b, Start, [(tag, LengthDelimited, [])], (Ok tt).
    split; [reflexivity|]. split; constructor.
Qed.

Lemma loop_items m p a p1 hs : items m true p a p1 hs -> forall fuel rest p2 hs2 o dst total,
  (length a + 1 <= fuel)%nat -> call_ends m p1 rest p2 hs2 o ->
  pdecode_loop m fuel (decoder_of p, a ++ rest, dst) total =
  ((decoder_of p2, rest, dst ++ hs ++ hs2), with_count (total + N.of_nat (length a)) o).
Proof.
  induction 1 as [p|p bs p1 h bs' p3 hs Hi Hne H IH]; intros fuel rest p2 hs2 o dst total Hf Hc;
    (destruct fuel as [|fuel]; [lia|]); cbn [pdecode_loop].
  - cbn [app length]. rewrite N.add_0_r. destruct Hc as [p rest o Ho | tag rest].
    + rewrite (halt_step m p rest dst o Ho). rewrite app_nil_r. destruct o; cbn [with_count binds]; [|reflexivity..].
      now rewrite N.eqb_refl.
    + change rest with ([] ++ rest) at 1.
      rewrite (item_step m (GotLen tag 0) [] Start [(tag, LengthDelimited, [])] rest dst) by (constructor; reflexivity).
      reflexivity.
  - rewrite <- app_assoc. rewrite (item_step m p bs p1 h (bs' ++ rest) dst Hi). cbn [binds].
    specialize (Hne eq_refl). rewrite app_length in *.
    assert (Hl : (1 <= length bs)%nat) by (destruct bs; [congruence|simpl; lia]).
    replace (N.of_nat (length bs) =? 0) with false by lia.
    rewrite (IH fuel rest p2 hs2 o) by (auto; lia). rewrite <- !app_assoc. do 2 f_equal. lia.
Qed.

Lemma pdecode_run m p a p1 hs rest p2 hs2 o dst :
  items m true p a p1 hs -> call_ends m p1 rest p2 hs2 o ->
  pdecode m (decoder_of p) (a ++ rest) dst =
  ((decoder_of p2, rest, dst ++ hs ++ hs2), with_count (N.of_nat (length a)) o).
Proof.
  intros Ha Hc. unfold pdecode. rewrite (loop_items m p a p1 hs Ha _ rest p2 hs2 o dst 0); auto.
  rewrite app_length. lia.
Qed.

(* The complete description of one call. *)
Lemma pdecode_total m p b dst : bytes b -> sane p ->
  exists a p1 hs rest p2 hs2 o, b = a ++ rest /\ items m true p a p1 hs /\ call_ends m p1 rest p2 hs2 o /\
  pdecode m (decoder_of p) b dst = ((decoder_of p2, rest, dst ++ hs ++ hs2), with_count (N.of_nat (length a)) o).
Proof.
  intros Hb Hp. destruct (call_run m (length b) p b (le_n _) Hb Hp) as (a & p1 & hs & rest & p2 & hs2 & o & -> & Ha & Hc).
  exists a, p1, hs, rest, p2, hs2, o. repeat split; auto. now apply pdecode_run with p1.
Qed.

Lemma call_ends_idle m p rest p2 hs2 o : call_ends m p rest p2 hs2 o -> sane p -> idle p2.
Proof.
  destruct 1 as [p rest o Ho|tag rest]; cbn; auto. intros Hs.
  destruct Ho as [p rest Hw|bs k x Hr Hb|p bs x -> Hp Hc Hn Hx]; cbn; auto.
  - destruct p as [|tag t|tag n]; cbn in *; auto. split; [tauto|]. lia.
  - destruct Hp as [->|(tag & ->)]; cbn in *; auto.
Qed.

(* ------------------------------------------------------------------ *)
(* Repeated calls. *)
Lemma items_split m p a p1 hs : items m false p a p1 hs ->
  items m true p a p1 hs \/
  exists a1 a2 tag h1 h2, a = a1 ++ a2 /\ items m true p a1 (GotLen tag 0) h1 /\
    items m false Start a2 p1 h2 /\ hs = h1 ++ (tag, LengthDelimited, []) :: h2.
Proof.
  induction 1 as [p|p bs p1 h bs' p2 hs Hi _ H IH]; [left; constructor|].
  destruct bs as [|c bs].
  - right. exists [], bs'. inversion Hi; subst; clear Hi;
      repeat match goal with
      | H : reads _ [] _ |- _ => apply reads_nonempty in H; congruence
      | H : varint_shape [] |- _ => destruct H as (? & H); inversion H
      | H : length [] = _ |- _ => discriminate H
      end.
    exists tag, [], hs. split; [reflexivity|]. split; [constructor|]. split; [exact H|reflexivity].
  - destruct IH as [IH|(a1 & a2 & tag & h1 & h2 & -> & H1 & H2 & ->)].
    + left. econstructor; eauto. discriminate.
    + right. exists ((c :: bs) ++ a1), a2, tag, (h ++ h1), h2. split; [now rewrite app_assoc|].
      split; [econstructor; eauto; discriminate|]. split; [exact H2|]. now rewrite app_assoc.
Qed.

Lemma until_run m n : forall fuel p a p1 hs rest o dst, (length a <= n)%nat -> (length a + 1 <= fuel)%nat ->
  idle p -> items m false p a p1 hs -> halt m p1 rest o ->
  decode_until m fuel (decoder_of p) (a ++ rest) dst = ((decoder_of p1, rest, dst ++ hs), o).
Proof.
  induction n as [|n IH]; intros fuel p a p1 hs rest o dst Hn Hf Hp Ha Ho;
    (destruct fuel as [|fuel]; [lia|]); cbn [decode_until].
  - destruct a; [|simpl in Hn; lia]. destruct (items_split m p [] p1 hs Ha) as [H|(a1 & a2 & tag & h1 & h2 & E & H1 & _)].
    + rewrite (pdecode_run m p [] p1 hs rest p1 [] o dst H) by now constructor.
      rewrite app_nil_r. destruct o as [[]|e| |]; reflexivity.
    + destruct a1; [|discriminate]. exfalso. clear - H1 Hp. remember [] as b. remember (GotLen tag 0) as q.
      destruct H1 as [p|p bs p1 h bs' p2 hs Hi Hne H].
      * subst. cbn in Hp. lia.
      * destruct bs; [now elim (Hne eq_refl) | discriminate].
  - destruct (items_split m p a p1 hs Ha) as [H|(a1 & a2 & tag & h1 & h2 & -> & H1 & H2 & ->)].
    + rewrite (pdecode_run m p a p1 hs rest p1 [] o dst H) by now constructor.
      rewrite app_nil_r. destruct o as [[]|e| |]; cbn [with_count]; try reflexivity.
      destruct (N.eqb_spec (N.of_nat (length a)) 0) as [E|E]; [reflexivity|].
      destruct fuel as [|fuel]; [lia|]. cbn [decode_until].
      rewrite (pdecode_run m p1 [] p1 [] rest p1 [] (Ok tt)); [|constructor|now constructor].
      cbn [with_count length]. change (N.of_nat 0 =? 0) with true. now rewrite !app_nil_r.
    + rewrite <- app_assoc.
      rewrite (pdecode_run m p a1 (GotLen tag 0) h1 (a2 ++ rest) Start [(tag, LengthDelimited, [])] (Ok tt) dst H1) by constructor.
      cbn [with_count].
      assert (Hl : (1 <= length a1)%nat).
      { destruct a1; [|simpl; lia]. exfalso. clear - H1 Hp. remember [] as b. remember (GotLen tag 0) as q.
        destruct H1 as [p|p bs p1 h bs' p2 hs Hi Hne H].
        - subst. cbn in Hp. lia.
        - destruct bs; [now elim (Hne eq_refl) | discriminate]. }
      replace (N.of_nat (length a1) =? 0) with false by lia.
      rewrite app_length in *.
      rewrite (IH fuel Start a2 p1 h2 rest o) by (auto; try lia; exact I).
      f_equal. f_equal. now rewrite <- !app_assoc.
Qed.

Lemma full_run m n p b : (length b <= n)%nat -> bytes b -> idle p ->
  exists a p1 hs rest o, b = a ++ rest /\ items m false p a p1 hs /\ halt m p1 rest o /\ idle p1.
Proof.
  revert p b. induction n as [|n IH]; intros p b Hn Hb Hp;
    destruct (call_run m (length b) p b (le_n _) Hb (idle_sane p Hp)) as (a & p1 & hs & rest & p2 & hs2 & o & -> & Ha & Hc);
    pose proof (call_ends_idle m p1 rest p2 hs2 o Hc (items_sane _ _ _ _ _ _ Ha (idle_sane p Hp))) as Hi.
  - destruct a; [|simpl in Hn; lia]. destruct rest; [|simpl in Hn; lia]. inversion Hc; subst.
    + exists [], p2, hs, [], o. repeat split; auto. now apply items_weaken.
    + exfalso. remember [] as b. remember (GotLen tag 0) as q.
      destruct Ha as [q'|q' bs p1 h bs' p2 hs Hi' Hne H].
      * subst. cbn in Hp. lia.
      * destruct bs; [now elim (Hne eq_refl) | discriminate].
  - inversion Hc; subst.
    + exists a, p2, hs, rest, o. repeat split; auto. now apply items_weaken.
    + apply bytes_app in Hb as [_ Hb].
      destruct (IH Start rest) as (a' & p1 & hs' & rest' & o & -> & Ha' & Ho & Hp1); auto.
      { rewrite app_length in Hn. assert (1 <= length a)%nat; [|lia].
        destruct a; [|simpl; lia]. exfalso. remember [] as b. remember (GotLen tag 0) as q.
        destruct Ha as [q'|q' bs p1 h bs' p2 hs Hi' Hne H].
        - subst. cbn in Hp. lia.
        - destruct bs; [now elim (Hne eq_refl) | discriminate]. }
      exists (a ++ a'), p1, (hs ++ [(tag, LengthDelimited, [])] ++ hs'), rest', o.
      split; [now rewrite app_assoc|]. split; [|auto].
      apply items_app with (GotLen tag 0); [now apply items_weaken|].
      change a' with ([] ++ a'). econstructor; [constructor; reflexivity|discriminate|exact Ha'].
Qed.

Lemma decode_fully_run m p a p1 hs rest o dst : idle p -> items m false p a p1 hs -> halt m p1 rest o ->
  decode_fully m (decoder_of p) (a ++ rest) dst = ((decoder_of p1, rest, dst ++ hs), o).
Proof.
  intros Hp Ha Ho. unfold decode_fully. apply (until_run m (length a)); auto. rewrite app_length. lia.
Qed.

Lemma decode_fully_total m p b dst : bytes b -> idle p ->
  exists a p1 hs rest o, b = a ++ rest /\ items m false p a p1 hs /\ halt m p1 rest o /\ idle p1 /\
  decode_fully m (decoder_of p) b dst = ((decoder_of p1, rest, dst ++ hs), o).
Proof.
  intros Hb Hp. destruct (full_run m (length b) p b (le_n _) Hb Hp) as (a & p1 & hs & rest & o & -> & Ha & Ho & Hp1).
  exists a, p1, hs, rest, o. repeat split; auto. now apply decode_fully_run.
Qed.

Lemma decoder_of_inj p q : decoder_of p = decoder_of q -> idle p -> idle q -> p = q.
Proof.
  destruct p as [|tag t|tag n], q as [|tag' t'|tag' n']; cbn; intros E Hp Hq; try discriminate; auto;
    unfold pdecoder_default in E; injection E; intros; subst; try reflexivity; try (destruct Hp, Hq; congruence);
    try (exfalso; lia); try tauto.
Qed.

(* C44 *)
Theorem decode_split m p a b dst d1 r1 dst1 : bytes (a ++ b) -> idle p ->
  decode_fully m (decoder_of p) a dst = ((d1, r1, dst1), Ok tt) ->
  decode_fully m (decoder_of p) (a ++ b) dst = decode_fully m d1 (r1 ++ b) dst1.
Proof.
  intros Hb Hp E. apply bytes_app in Hb as [Ha Hb].
  destruct (decode_fully_total m p a dst Ha Hp) as (a0 & p1 & hs & rest & o & -> & Hi & Ho & Hp1 & E').
  rewrite E in E'. injection E'. intros <- -> -> ->. clear E E'.
  apply bytes_app in Ha as [_ Hr].
  destruct (decode_fully_total m p1 (rest ++ b) (dst ++ hs)) as (a1 & p2 & hs' & rest' & o' & Eb & Hi' & Ho' & Hp2 & E').
  { now apply bytes_app. } { exact Hp1. }
  rewrite E'. rewrite <- !app_assoc. rewrite Eb, app_assoc.
  rewrite (decode_fully_run m p (a0 ++ a1) p2 (hs ++ hs') rest' o'); auto.
  now apply items_app with p1.
Qed.

Lemma halt_more m p rest o b : halt m p rest o -> o <> Ok tt -> halt m p (rest ++ b) o.
Proof.
  destruct 1 as [p rest Hw|bs k x Hr Hb|p bs x -> Hp Hc Hn Hx]; intros Ho; [congruence|..].
  - rewrite <- app_assoc. econstructor; eauto.
  - rewrite <- app_assoc. apply halt_long; auto. destruct x; [congruence|discriminate].
Qed.

Theorem decode_split_error m p a b dst d1 r1 dst1 o : bytes (a ++ b) -> idle p ->
  decode_fully m (decoder_of p) a dst = ((d1, r1, dst1), o) -> o <> Ok tt ->
  decode_fully m (decoder_of p) (a ++ b) dst = ((d1, r1 ++ b, dst1), o).
Proof.
  intros Hb Hp E Hno. apply bytes_app in Hb as [Ha Hb].
  destruct (decode_fully_total m p a dst Ha Hp) as (a0 & p1 & hs & rest & o' & -> & Hi & Ho & Hp1 & E').
  rewrite E in E'. injection E'. intros <- -> -> ->. rewrite <- app_assoc.
  apply decode_fully_run; auto. now apply halt_more.
Qed.

(* C45 *)
Theorem decode_error m p b dst d1 r1 dst1 e : bytes b -> sane p ->
  pdecode m (decoder_of p) b dst = ((d1, r1, dst1), Err e) ->
  e = PInvalidInput /\ d1 = pdecoder_default /\
  (exists key k x, r1 = key ++ x /\ reads m key k /\ bad_key k) /\
  exists a hs, b = a ++ r1 /\ items m true p a Start hs /\ dst1 = dst ++ hs.
Proof.
  intros Hb Hp E. destruct (pdecode_total m p b dst Hb Hp) as (a & p1 & hs & rest & p2 & hs2 & o & -> & Ha & Hc & E').
  rewrite E in E'. destruct Hc as [p1 rest o Ho|tag rest]; [|discriminate].
  destruct Ho as [p1 rest Hw|bs k x Hr Hbad|p1 bs x -> Hp' Hc Hn Hx]; try discriminate.
  injection E'. intros -> -> -> ->. rewrite app_nil_r. repeat split; eauto 10.
Qed.

(* C47 *)
Theorem decode_count m p b dst st n : bytes b -> sane p ->
  pdecode m (decoder_of p) b dst = (st, Ok n) -> exists a, b = a ++ snd (fst st) /\ N.of_nat (length a) = n.
Proof.
  intros Hb Hp E. destruct (pdecode_total m p b dst Hb Hp) as (a & p1 & hs & rest & p2 & hs2 & o & -> & Ha & Hc & E').
  rewrite E in E'. injection E'. intros En ->. exists a. cbn [fst snd].
  split; [reflexivity|]. destruct o; cbn in En; congruence.
Qed.

Theorem decode_terminates m p b dst : bytes b -> sane p ->
  snd (pdecode m (decoder_of p) b dst) <> OutOfFuel /\ (m = Release -> snd (pdecode m (decoder_of p) b dst) <> Panic).
Proof.
  intros Hb Hp. destruct (pdecode_total m p b dst Hb Hp) as (a & p1 & hs & rest & p2 & hs2 & o & -> & Ha & Hc & ->).
  cbn [snd]. destruct Hc as [p1 rest o Ho|tag rest]; [|split; discriminate].
  destruct Ho; split; try discriminate. intros ->. discriminate.
Qed.

(* C48 *)
Lemma items_fields m ne p a p1 hs : items m ne p a p1 hs -> forall bs0, pending_read m p bs0 ->
  exists parts tail, Forall2 (field_read m) hs parts /\ pending_read m p1 tail /\ bs0 ++ a = concat parts ++ tail.
Proof.
  induction 1 as [p|p bs p1 h bs' p2 hs Hi _ H IH]; intros bs0 H0.
  - exists [], bs0. split; [constructor|]. split; [exact H0|]. now rewrite app_nil_r.
  - destruct Hi as [bs tag t n Hr Hn Ht | tag bs Hv | tag bs Hl | tag bs Hl | tag bs n Hr | tag n bs Hl]; cbn [pending_read] in H0.
    + subst bs0. destruct (IH bs) as (parts & tail & H1 & H2 & E); [exists n; auto|].
      exists parts, tail. auto.
    + destruct (IH []) as (parts & tail & H1 & H2 & E); [reflexivity|]. cbn [app] in E.
      exists ((bs0 ++ bs) :: parts), tail. split; [constructor; [exists bs0; auto|exact H1]|]. split; [exact H2|].
      cbn [concat]. rewrite E. now rewrite <- !app_assoc.
    + destruct (IH []) as (parts & tail & H1 & H2 & E); [reflexivity|]. cbn [app] in E.
      exists ((bs0 ++ bs) :: parts), tail. split; [constructor; [exists bs0; auto|exact H1]|]. split; [exact H2|].
      cbn [concat]. rewrite E. now rewrite <- !app_assoc.
    + destruct (IH []) as (parts & tail & H1 & H2 & E); [reflexivity|]. cbn [app] in E.
      exists ((bs0 ++ bs) :: parts), tail. split; [constructor; [exists bs0; auto|exact H1]|]. split; [exact H2|].
      cbn [concat]. rewrite E. now rewrite <- !app_assoc.
    + destruct (IH (bs0 ++ bs)) as (parts & tail & H1 & H2 & E); [exists bs0, bs; auto|].
      exists parts, tail. rewrite <- E, app_assoc. auto.
    + destruct H0 as (key & len & Hk & Hlen & ->).
      destruct (IH []) as (parts & tail & H1 & H2 & E); [reflexivity|]. cbn [app] in E.
      exists ((key ++ len ++ bs) :: parts), tail. split.
      * constructor; [|exact H1]. exists key. split; [exact Hk|]. exists len. rewrite Hl. auto.
      * split; [exact H2|]. cbn [concat]. rewrite E. now rewrite <- !app_assoc.
Qed.

Theorem decode_emits m p b dst d1 r1 dst1 o bs0 : bytes b -> idle p -> pending_read m p bs0 ->
  pdecode m (decoder_of p) b dst = ((d1, r1, dst1), o) ->
  exists a p1 hs parts tail, b = a ++ r1 /\ d1 = decoder_of p1 /\ idle p1 /\ dst1 = dst ++ hs /\
    Forall2 (field_read m) hs parts /\ pending_read m p1 tail /\ bs0 ++ a = concat parts ++ tail.
Proof.
  intros Hb Hp H0 E.
  destruct (pdecode_total m p b dst Hb (idle_sane p Hp)) as (a & p1 & hs & rest & p2 & hs2 & o' & -> & Ha & Hc & E').
  rewrite E in E'. injection E'. intros _ -> -> ->.
  pose proof (call_ends_idle _ _ _ _ _ _ Hc (items_sane _ _ _ _ _ _ Ha (idle_sane p Hp))) as Hi2.
  assert (Ha2 : items m false p (a ++ []) p2 (hs ++ hs2)).
  { apply items_app with p1; [now apply items_weaken|]. destruct Hc as [p1 rest o'' Ho|tag rest].
    - constructor.
    - apply items_one; [constructor; reflexivity|discriminate]. }
  rewrite app_nil_r in Ha2.
  destruct (items_fields _ _ _ _ _ _ Ha2 bs0 H0) as (parts & tail & H1 & H2 & E2).
  exists a, p2, (hs ++ hs2), parts, tail. repeat split; auto.
Qed.

Lemma field_read_valid m tag t p bs : field_read m (tag, t, p) bs -> 1 <= tag < 2 ^ 29 /\ t <> Unknown.
Proof.
  intros (key & (n & _ & _ & Ht) & H). split; [exact Ht|]. intros ->. exact H.
Qed.

(* ------------------------------------------------------------------ *)
(* Encoded fields. *)
Lemma field_items m ne tag t p bs : 1 <= tag < 2 ^ 29 -> payload_ok t p -> (ne = true -> p <> []) ->
  field_wire (tag, t, p) bs -> items m ne Start bs Start [(tag, t, p)].
Proof.
  intros Ht Hp Hne (n & key & Hn & Hk & Hm).
  assert (Hr : reads m key (8 * tag + n)).
  { apply reads_shortest; [exact Hk|]. apply wire_number_num in Hn as [_ Hn].
    change (2 ^ 29) with 536870912 in *. change (2 ^ 64) with 18446744073709551616. lia. }
  assert (Hkey : items m ne Start key (GotKey tag t) []).
  { apply items_one; [econstructor; eauto|]. intros _. eapply reads_nonempty; eauto. }
  change [(tag, t, p)] with ([] ++ [(tag, t, p)]).
  destruct t; cbn [payload_ok] in Hp; try contradiction.
  - subst bs. eapply items_app; [exact Hkey|]. apply items_one; [now constructor|auto].
  - subst bs. eapply items_app; [exact Hkey|]. apply items_one; [now constructor|auto].
  - destruct Hm as (len & Hl & ->). eapply items_app; [exact Hkey|].
    assert (Hrl : reads m len (N.of_nat (length p))) by (apply reads_shortest; auto).
    change [(tag, LengthDelimited, p)] with ([] ++ [(tag, LengthDelimited, p)]).
    eapply items_app.
    + apply items_one; [constructor; exact Hrl|]. intros _. eapply reads_nonempty; eauto.
    + apply items_one; [now constructor|auto].
  - subst bs. eapply items_app; [exact Hkey|]. apply items_one; [now constructor|auto].
Qed.

Lemma fields_items m ne fs parts : Forall2 field_wire fs parts ->
  Forall (fun f => 1 <= fst (fst f) < 2 ^ 29 /\ payload_ok (snd (fst f)) (snd f) /\ (ne = true -> snd f <> [])) fs ->
  items m ne Start (concat parts) Start fs.
Proof.
  induction 1 as [|[[tag t] p] bs fs parts Hf H IH]; intros HF; cbn [concat].
  - constructor.
  - inversion HF as [|x l (Ht & Hp & Hne) HF']; subst. cbn [fst snd] in *.
    change ((tag, t, p) :: fs) with ([(tag, t, p)] ++ fs). eapply items_app; [now apply field_items|]. auto.
Qed.

Lemma start_waits m : halt m Start [] (Ok tt).
Proof. constructor. split; [constructor|simpl; lia]. Qed.

Theorem decode_message m fs parts dst : Forall2 field_wire fs parts ->
  Forall (fun f => 1 <= fst (fst f) < 2 ^ 29 /\ payload_ok (snd (fst f)) (snd f) /\ snd f <> []) fs ->
  pdecode m pdecoder_default (concat parts) dst =
  ((pdecoder_default, [], dst ++ fs), Ok (N.of_nat (length (concat parts)))).
Proof.
  intros H HF.
  rewrite <- (app_nil_r (concat parts)) at 1.
  change pdecoder_default with (decoder_of Start) at 1.
  rewrite (pdecode_run m Start (concat parts) Start fs [] Start [] (Ok tt)).
  - now rewrite app_nil_r.
  - apply fields_items; [exact H|]. eapply Forall_impl; [|exact HF]. cbn. tauto.
  - constructor. apply start_waits.
Qed.

Theorem decode_message_fully m fs parts dst : Forall2 field_wire fs parts ->
  Forall (fun f => 1 <= fst (fst f) < 2 ^ 29 /\ payload_ok (snd (fst f)) (snd f)) fs ->
  decode_fully m pdecoder_default (concat parts) dst = ((pdecoder_default, [], dst ++ fs), Ok tt).
Proof.
  intros H HF. rewrite <- (app_nil_r (concat parts)).
  change pdecoder_default with (decoder_of Start) at 1.
  rewrite (decode_fully_run m Start (concat parts) Start fs [] (Ok tt)); auto.
  - exact I.
  - apply fields_items; [exact H|]. eapply Forall_impl; [|exact HF]. cbn. intros a (H1 & H2). repeat split; try tauto; discriminate.
  - apply start_waits.
Qed.

(* One call stops right after the first empty payload. *)
Theorem decode_message_empty m fs parts tag key more dst : Forall2 field_wire fs parts ->
  Forall (fun f => 1 <= fst (fst f) < 2 ^ 29 /\ payload_ok (snd (fst f)) (snd f) /\ snd f <> []) fs ->
  1 <= tag < 2 ^ 29 -> field_wire (tag, LengthDelimited, []) key ->
  pdecode m pdecoder_default (concat parts ++ key ++ more) dst =
  ((pdecoder_default, more, dst ++ fs ++ [(tag, LengthDelimited, [])]), Ok (N.of_nat (length (concat parts ++ key)))).
Proof.
  intros H HF Ht (n & k & Hn & Hk & len & Hl & ->).
  assert (Hi : items m true Start (concat parts ++ k ++ len) (GotLen tag 0) (fs ++ [] ++ [])).
  { eapply items_app; [apply fields_items; [exact H|]; eapply Forall_impl; [|exact HF]; cbn; tauto|].
    assert (Hr : reads m k (8 * tag + n)).
    { apply reads_shortest; [exact Hk|]. apply wire_number_num in Hn as [_ Hn].
      change (2 ^ 29) with 536870912 in *. change (2 ^ 64) with 18446744073709551616. lia. }
    eapply items_app.
    - apply items_one; [econstructor; eauto|]. intros _. eapply reads_nonempty; eauto.
    - assert (reads m len 0) by (apply reads_shortest; [exact Hl|reflexivity]).
      apply items_one; [constructor; assumption|]. intros _. eapply reads_nonempty; eauto. }
  rewrite app_nil_r. rewrite (app_assoc (concat parts)).
  change pdecoder_default with (decoder_of Start) at 1.
  rewrite (pdecode_run m Start _ _ _ more Start [(tag, LengthDelimited, [])] (Ok tt) dst Hi) by constructor.
  cbn [app with_count decoder_of]. now rewrite app_nil_r.
Qed.
