(* The protobuf decoder on targets whose usize has [w] bits.  The only place where
   the width matters is `size as usize` in extract_ld; ProtosModel.v has w = 64. *)
From Verif Require Import Base Leb ProtosModel ProtosSpec ProtosApi ProtosNum ProtosEnc ProtosDec.
Open Scope N_scope.

(* ------------------------------------------------------------------ *)
(* Model. *)

(* protos/src/decoder/primitives.rs:671-682, extract_ld; size: u64 *)
Definition prim_extract_ld_on (w : N) (buf : list N) (size : N) : outcome pdec_error (list N * N) :=
  let size := wrap w size in
  if N.of_nat (length buf) <? size then Err PInputUnderflow else Ok (firstn (N.to_nat size) buf, size).

(* protos/src/decoder/mod.rs:209-219 and 254-270, extract_ld *)
Definition step_ld_on (w : N) (m : mode) (st : pstate) : pstate * outcome pdec_error N :=
  match pld (fst (fst st)) with
  | Some len => step_extract (fun buf => prim_extract_ld_on w buf len) st
  | None => step_len m st
  end.

(* protos/src/decoder/mod.rs:78-95, one iteration of decode *)
Definition pstep_on (w : N) (m : mode) (st : pstate) : pstate * outcome pdec_error N :=
  match ptyp (fst (fst st)) with
  | Unknown => step_key m st
  | Varint => step_extract prim_extract_varint st
  | Bit32 => step_extract prim_extract_bit32 st
  | Bit64 => step_extract prim_extract_bit64 st
  | LengthDelimited => step_ld_on w m st
  end.

(* protos/src/decoder/mod.rs:71-102, Decoder::decode; fuel as in ProtosModel.v *)
Fixpoint pdecode_loop_on (w : N) (m : mode) (fuel : nat) (st : pstate) (total : N) : pstate * outcome pdec_error N :=
  match fuel with
  | O => (st, OutOfFuel)
  | S fuel' =>
      binds (pstep_on w m st)
        (fun st size => if size =? 0 then (st, Ok total) else pdecode_loop_on w m fuel' st (total + size))
  end.
(* protos/src/decoder/mod.rs:71-102, Decoder::decode *)
Definition pdecode_on (w : N) (m : mode) (d : pdecoder) (buf : list N) (dst : list pfield)
  : pstate * outcome pdec_error N :=
  pdecode_loop_on w m (length buf + 1) (d, buf, dst) 0.

(* ------------------------------------------------------------------ *)
(* Specification: as in ProtosApi.v, but the length is taken modulo 2^w. *)
Inductive item_on (w : N) (m : mode) : pending -> list N -> pending -> list pfield -> Prop :=
| on_item p bs p1 h : item m p bs p1 h -> (forall tag, p <> GotKey tag LengthDelimited) -> item_on w m p bs p1 h
| on_len tag bs n : reads m bs n -> item_on w m (GotKey tag LengthDelimited) bs (GotLen tag (n mod 2 ^ w)) [].

Inductive items_on (w : N) (m : mode) : pending -> list N -> pending -> list pfield -> Prop :=
| on_nil p : items_on w m p [] p []
| on_cons p bs p1 h bs' p2 hs : item_on w m p bs p1 h -> bs <> [] ->
    items_on w m p1 bs' p2 hs -> items_on w m p (bs ++ bs') p2 (h ++ hs).

(* [holds w d p]: the decoder d is in state p, as far as w bits of the length go. *)
Definition holds (w : N) (d : pdecoder) (p : pending) : Prop :=
  match p with
  | GotLen tag n => exists len, d = mkP tag LengthDelimited (Some len) /\ n = len mod 2 ^ w
  | _ => d = decoder_of p
  end.

(* [announces m p b n]: somewhere in b a length n is announced. *)
Definition announces (m : mode) (p : pending) (b : list N) (n : N) : Prop :=
  exists a rest tag hs, b = a ++ rest /\ items m false p a (GotLen tag n) hs.

(* ------------------------------------------------------------------ *)
Lemma holds_not_len w d p : holds w d p -> (forall tag n, p <> GotLen tag n) -> d = decoder_of p.
Proof. destruct p; cbn; auto. intros _ H. exfalso. eapply H; reflexivity. Qed.

Lemma pstep_on_same w m p b dst : (forall tag n, p <> GotLen tag n) ->
  pstep_on w m (decoder_of p, b, dst) = pstep m (decoder_of p, b, dst).
Proof.
  intros H. unfold pstep_on, pstep. destruct p as [|tag []|tag n]; try reflexivity. exfalso. eapply H; reflexivity.
Qed.

Lemma item_on_step w m p bs p1 h d rest dst : item_on w m p bs p1 h -> holds w d p ->
  exists d1, holds w d1 p1 /\
  pstep_on w m (d, bs ++ rest, dst) = ((d1, rest, dst ++ h), Ok (N.of_nat (length bs))).
Proof.
  intros H Hd. destruct H as [p bs p1 h Hi Hp | tag bs n Hr].
  - destruct p as [|tag t|tag n].
    + cbn in Hd. subst d. inversion Hi; subst. exists (decoder_of (GotKey tag t)). split; [reflexivity|].
      change pdecoder_default with (decoder_of Start). rewrite pstep_on_same by discriminate. now apply item_step.
    + cbn in Hd. subst d. change (mkP tag t None) with (decoder_of (GotKey tag t)).
      exists (decoder_of p1). split.
      * inversion Hi; subst; try reflexivity. now elim (Hp tag).
      * rewrite pstep_on_same by discriminate. now apply item_step.
    + destruct Hd as (len & -> & ->). inversion Hi as [| | | | |tag' n' bs' Hl]; subst. exists pdecoder_default. split; [reflexivity|].
      unfold pstep_on, step_ld_on, step_extract, prim_extract_ld_on, wrap. cbn [fst ptyp pld ptag].
      rewrite <- Hl, app_length.
      replace (N.of_nat (length bs + length rest) <? N.of_nat (length bs)) with false by lia.
      rewrite Nat2N.id, firstn_app, Nat.sub_diag, firstn_O, app_nil_r, firstn_all, drain_app. reflexivity.
  - cbn in Hd. subst d. exists (mkP tag LengthDelimited (Some n)). split; [exists n; auto|].
    change (mkP tag LengthDelimited None) with (decoder_of (GotKey tag LengthDelimited)).
    rewrite pstep_on_same by discriminate.
    exact (item_step m _ bs (GotLen tag n) [] rest dst (item_len m tag bs n Hr)).
Qed.

Lemma halt_on_step w m p d rest dst o : halt m p rest o -> holds w d p ->
  pstep_on w m (d, rest, dst) = ((d, rest, dst), with_count 0 o).
Proof.
  intros H Hd. destruct p as [|tag t|tag n].
  - cbn in Hd. subst d. change pdecoder_default with (decoder_of Start).
    rewrite pstep_on_same by discriminate. now apply halt_step.
  - cbn in Hd. subst d. change (mkP tag t None) with (decoder_of (GotKey tag t)).
    rewrite pstep_on_same by discriminate. now apply halt_step.
  - destruct Hd as (len & -> & ->). inversion H as [p' r' Hw|bs k x Hr Hb|p' bs x -> Hp Hc Hn Hx]; subst.
    + cbn in Hw. unfold pstep_on, step_ld_on, step_extract, prim_extract_ld_on, wrap. cbn [fst ptyp pld].
      apply N.ltb_lt in Hw. now rewrite Hw.
    + destruct Hp as [Hp|(t & Hp)]; discriminate Hp.
Qed.

Lemma item_on_sane w m p bs p1 h : item_on w m p bs p1 h -> sane p -> sane p1.
Proof.
  destruct 1 as [p bs p1 h Hi Hp | tag bs n Hr]; [eauto using item_sane|].
  cbn. intros [Ht _]. split; [exact Ht|]. pose proof (reads_bound _ _ _ Hr).
  eapply N.le_lt_trans; [apply N.mod_le|]; auto. apply N.pow_nonzero. discriminate.
Qed.

Lemma next_item_on w m p b : bytes b -> sane p ->
  (exists bs p1 h rest, b = bs ++ rest /\ item_on w m p bs p1 h /\ bs <> []) \/
  (exists o, halt m p b o) \/ (exists tag, p = GotLen tag 0).
Proof.
  intros Hb Hp. destruct (next_item m p b Hb Hp) as [(bs & p1 & h & rest & -> & Hi & Hne)|[H|H]]; auto.
  left. destruct p as [|tag t|tag n].
  - exists bs, p1, h, rest. repeat split; auto. constructor; [exact Hi|discriminate].
  - destruct t; try (exists bs, p1, h, rest; repeat split; auto; constructor; [exact Hi|discriminate]).
    inversion Hi as [| | | |tag' bs' n Hr|]; subst. exists bs, (GotLen tag (n mod 2 ^ w)), [], rest. repeat split; auto. now constructor.
  - exists bs, p1, h, rest. repeat split; auto. constructor; [exact Hi|discriminate].
Qed.

Lemma call_run_on w m n p b : (length b <= n)%nat -> bytes b -> sane p ->
  exists a p1 hs rest p2 hs2 o, b = a ++ rest /\ items_on w m p a p1 hs /\ sane p1 /\ call_ends m p1 rest p2 hs2 o.
Proof.
  revert p b. induction n as [|n IH]; intros p b Hn Hb Hp;
    destruct (next_item_on w m p b Hb Hp) as [(bs & p1 & h & rest & -> & Hi & Hne)|[(o & Ho)|(tag & ->)]].
  - destruct bs; [congruence|simpl in Hn; lia].
  - exists [], p, [], b, p, [], o. split; [reflexivity|]. split; [constructor|]. split; [exact Hp|]. now constructor.
  - exists [], (GotLen tag 0), [], b, Start, [(tag, LengthDelimited, [])], (Ok tt).
    split; [reflexivity|]. split; [constructor|]. split; [exact Hp|]. constructor.
  - apply bytes_app in Hb as [_ Hb].
    destruct (IH p1 rest) as (a & p3 & hs & rest' & p2 & hs2 & o & -> & Ha & Hs & Hc); auto.
    { rewrite app_length in Hn. destruct bs; [congruence|simpl in Hn; lia]. }
    { eapply item_on_sane; eauto. }
    exists (bs ++ a), p3, (h ++ hs), rest', p2, hs2, o. split; [now rewrite app_assoc|]. split; [|auto].
    econstructor; eauto.
  - exists [], p, [], b, p, [], o. split; [reflexivity|]. split; [constructor|]. split; [exact Hp|]. now constructor.
  - exists [], (GotLen tag 0), [], b, Start, [(tag, LengthDelimited, [])], (Ok tt).
    split; [reflexivity|]. split; [constructor|]. split; [exact Hp|]. constructor.
Qed.

Lemma loop_items_on w m p a p1 hs : items_on w m p a p1 hs -> forall fuel rest p2 hs2 o d dst total,
  (length a + 1 <= fuel)%nat -> call_ends m p1 rest p2 hs2 o -> holds w d p ->
  exists d2, holds w d2 p2 /\
  pdecode_loop_on w m fuel (d, a ++ rest, dst) total =
  ((d2, rest, dst ++ hs ++ hs2), with_count (total + N.of_nat (length a)) o).
Proof.
  induction 1 as [p|p bs p1 h bs' p3 hs Hi Hne H IH]; intros fuel rest p2 hs2 o d dst total Hf Hc Hd;
    (destruct fuel as [|fuel]; [lia|]); cbn [pdecode_loop_on].
  - cbn [app length]. rewrite N.add_0_r. destruct Hc as [p rest o Ho | tag rest].
    + exists d. split; [exact Hd|].
      rewrite (halt_on_step w m p d rest dst o Ho Hd). rewrite app_nil_r. destruct o; cbn [with_count binds]; [|reflexivity..].
      now rewrite N.eqb_refl.
    + destruct (item_on_step w m (GotLen tag 0) [] Start [(tag, LengthDelimited, [])] d rest dst) as (d1 & H1 & E);
        [constructor; [constructor; reflexivity|discriminate]|exact Hd|].
      exists d1. split; [exact H1|]. cbn [app] in E. rewrite E. reflexivity.
  - rewrite <- app_assoc. destruct (item_on_step w m p bs p1 h d (bs' ++ rest) dst Hi Hd) as (d1 & H1 & E).
    rewrite E. cbn [binds].
    rewrite app_length in *.
    assert (Hl : (1 <= length bs)%nat) by (destruct bs; [congruence|simpl; lia]).
    replace (N.of_nat (length bs) =? 0) with false by lia.
    destruct (IH fuel rest p2 hs2 o d1 (dst ++ h) (total + N.of_nat (length bs)) ltac:(lia) Hc H1) as (d2 & H2 & E2).
    exists d2. split; [exact H2|]. rewrite E2, <- !app_assoc. do 2 f_equal. lia.
Qed.

Lemma pdecode_on_total w m p d b dst : bytes b -> idle p -> holds w d p ->
  exists a p1 hs rest p2 hs2 o d2, b = a ++ rest /\ items_on w m p a p1 hs /\ call_ends m p1 rest p2 hs2 o /\
  idle p2 /\ holds w d2 p2 /\
  pdecode_on w m d b dst = ((d2, rest, dst ++ hs ++ hs2), with_count (N.of_nat (length a)) o).
Proof.
  intros Hb Hp Hd.
  destruct (call_run_on w m (length b) p b (le_n _) Hb (idle_sane p Hp)) as (a & p1 & hs & rest & p2 & hs2 & o & -> & Ha & Hs & Hc).
  destruct (loop_items_on w m p a p1 hs Ha (length (a ++ rest) + 1) rest p2 hs2 o d dst 0) as (d2 & H2 & E).
  { rewrite app_length. lia. } { exact Hc. } { exact Hd. }
  exists a, p1, hs, rest, p2, hs2, o, d2. split; [reflexivity|]. split; [exact Ha|]. split; [exact Hc|].
  split; [eapply call_ends_idle; eauto|]. split; [exact H2|exact E].
Qed.

(* Same as on 64 bits if every length fits. *)
Lemma loop_same w m p a p1 hs : items m true p a p1 hs -> forall fuel rest p2 hs2 o dst total,
  (length a + 1 <= fuel)%nat -> call_ends m p1 rest p2 hs2 o ->
  (forall n, announces m p (a ++ rest) n -> n < 2 ^ w) ->
  pdecode_loop_on w m fuel (decoder_of p, a ++ rest, dst) total =
  ((decoder_of p2, rest, dst ++ hs ++ hs2), with_count (total + N.of_nat (length a)) o).
Proof.
  assert (S : forall p b dst, (forall n, announces m p b n -> n < 2 ^ w) ->
    pstep_on w m (decoder_of p, b, dst) = pstep m (decoder_of p, b, dst)).
  { intros q b dst Hq. destruct q as [|tag t|tag n]; [now apply pstep_on_same|now apply pstep_on_same|].
    assert (Hn : n < 2 ^ w) by (apply Hq; exists [], b, tag, []; split; [reflexivity|constructor]).
    unfold pstep_on, pstep, step_ld_on, step_ld, step_extract, prim_extract_ld_on, prim_extract_ld, wrap.
    cbn [fst decoder_of ptyp pld]. now rewrite N.mod_small by exact Hn. }
  induction 1 as [p|p bs p1 h bs' p3 hs Hi Hne H IH]; intros fuel rest p2 hs2 o dst total Hf Hc Hn;
    (destruct fuel as [|fuel]; [lia|]); cbn [pdecode_loop_on]; rewrite S by exact Hn.
  - cbn [app length]. rewrite N.add_0_r. destruct Hc as [p rest o Ho | tag rest].
    + rewrite (halt_step m p rest dst o Ho). rewrite app_nil_r. destruct o; cbn [with_count binds]; [|reflexivity..].
      now rewrite N.eqb_refl.
    + change rest with ([] ++ rest) at 1.
      rewrite (item_step m (GotLen tag 0) [] Start [(tag, LengthDelimited, [])] rest dst) by (constructor; reflexivity).
      reflexivity.
  - rewrite <- app_assoc. rewrite (item_step m p bs p1 h (bs' ++ rest) dst Hi). cbn [binds].
    specialize (Hne eq_refl). rewrite app_length in *.
    assert (Hl : (1 <= length bs)%nat) by (destruct bs; [congruence|simpl; lia]).
    replace (N.of_nat (length bs) =? 0) with false by lia.
    rewrite (IH fuel rest p2 hs2 o); [rewrite <- !app_assoc; do 2 f_equal; lia|lia|exact Hc|].
    intros n (a & r & tag & h' & E & Ha). apply Hn. exists (bs ++ a), r, tag, (h ++ h').
    split; [rewrite <- !app_assoc; now rewrite E|]. econstructor; eauto.
Qed.

Lemma pdecode_on_same w m p b dst : bytes b -> idle p -> (forall n, announces m p b n -> n < 2 ^ w) ->
  pdecode_on w m (decoder_of p) b dst = pdecode m (decoder_of p) b dst.
Proof.
  intros Hb Hp Hn. destruct (pdecode_total m p b dst Hb (idle_sane p Hp)) as (a & p1 & hs & rest & p2 & hs2 & o & -> & Ha & Hc & ->).
  unfold pdecode_on. rewrite (loop_same w m p a p1 hs Ha _ rest p2 hs2 o dst 0); auto. rewrite app_length. lia.
Qed.

Lemma announces_bound m p b n : idle p -> announces m p b n -> n < 2 ^ 64.
Proof.
  intros Hp (a & rest & tag & hs & _ & Ha). pose proof (items_sane _ _ _ _ _ _ Ha (idle_sane _ Hp)) as H. apply H.
Qed.

(* Messages whose payloads are shorter than 2^w. *)
Definition narrow_payloads (w : N) (fs : list pfield) : Prop := Forall (fun f => N.of_nat (length (snd f)) < 2 ^ w) fs.

Lemma items_items_on w m p a p1 hs : items m true p a p1 hs -> p1 = Start -> narrow_payloads w hs -> items_on w m p a p1 hs.
Proof.
  induction 1 as [p|p bs p1 h bs' p2 hs Hi Hne H IH]; intros E Hn; [constructor|].
  apply Forall_app in Hn as [Hn1 Hn2]. specialize (IH E Hn2). specialize (Hne eq_refl).
  inversion Hi; subst; try (econstructor; [constructor; [exact Hi|discriminate]|exact Hne|exact IH]).
  assert (Hs : n < 2 ^ w).
  { inversion H as [|q bs2 q1 h2 bs3 q2 hs3 Hi2 Hne2 H2]; subst. inversion Hi2; subst.
    apply Forall_app in Hn2 as [Hn2 _]. inversion Hn2; subst. assumption. }
  econstructor; [|exact Hne|exact IH].
  match goal with R : reads m bs n |- _ => pose proof (on_len w m tag bs n R) as X end.
  rewrite (N.mod_small n (2 ^ w) Hs) in X. exact X.
Qed.

Lemma decode_message_on w m fs parts dst : Forall2 field_wire fs parts ->
  Forall (fun f => 1 <= fst (fst f) < 2 ^ 29 /\ payload_ok (snd (fst f)) (snd f) /\ snd f <> []) fs ->
  narrow_payloads w fs ->
  pdecode_on w m pdecoder_default (concat parts) dst =
  ((pdecoder_default, [], dst ++ fs), Ok (N.of_nat (length (concat parts)))).
Proof.
  intros Hf HF Hn.
  assert (Hi : items m true Start (concat parts) Start fs).
  { apply fields_items; [exact Hf|]. eapply Forall_impl; [|exact HF]. cbn. tauto. }
  destruct (loop_items_on w m Start (concat parts) Start fs (items_items_on w m _ _ _ _ Hi eq_refl Hn)
    (length (concat parts) + 1) [] Start [] (Ok tt) pdecoder_default dst 0) as (d2 & H2 & E).
  { lia. } { constructor. apply start_waits. } { reflexivity. }
  unfold pdecode_on. rewrite app_nil_r in E. rewrite E. cbn in H2. subst d2. now rewrite app_nil_r.
Qed.
