(* Calling encode again after it failed with EncoderError::Interrupted
   (protos/src/encoder/error.rs:13-15: "Interrupted operations can typically be
   retried"). *)
From Verif Require Import Base Leb ProtosModel ProtosSpec ProtosApi ProtosNum ProtosDec ProtosConv ProtosDerived ProtosMore ProtosIo ProtosIoProofs.
Open Scope list_scope. Open Scope N_scope.

(* ------------------------------------------------------------------ *)
(* Specification.  The calls of a caller that repeats encode with the same field and the
   same writer while it reports Interrupted: what each call left in the writer, and the
   outcome of the last one. *)
Inductive attempts {W} (write : W -> list N -> W * io_answer) (fuel : nat) (tag : N) (l : encoder_lit)
  : W -> list (list N) -> W -> outcome penc_error N -> Prop :=
| last_call w w1 got o : encode_to write fuel tag l w = ((w1, got), o) ->
    attempts write fuel tag l w [got] w1 o
| call_again w w1 got gots w2 o : encode_to write fuel tag l w = ((w1, got), Err PInterrupted) ->
    attempts write fuel tag l w1 gots w2 o -> attempts write fuel tag l w (got :: gots) w2 o.

(* What a decoder makes of a stream: the fields, with nothing left over and nothing pending. *)
Definition decodes_to (m : mode) (bs : list N) (fs : list pfield) : Prop :=
  decode_fully m pdecoder_default bs [] = ((pdecoder_default, [], fs), Ok tt).

(* ------------------------------------------------------------------ *)
Lemma leb_cut a v : leb128 a v -> forall g x, a = g ++ x -> x <> [] -> continued g.
Proof.
  induction 1 as [b Hb|b bs v Hb Hl IH]; intros g x E Hx.
  - destruct g as [|c g]; [constructor|]. cbn in E. injection E as _ E. destruct g; cbn in E; [|discriminate]. now subst x.
  - destruct g as [|c g]; [constructor|]. cbn in E. injection E as <- E. constructor; [lia|]. now apply (IH g x).
Qed.

(* The octets of a varint with more continued octets in front. *)
Lemma leb_in_front g k v : leb128 k v -> continued g -> exists u, leb128 (g ++ k) (u + 128 ^ N.of_nat (length g) * v) /\ u < 128 ^ N.of_nat (length g).
Proof.
  intros Hk. induction 1 as [|b g Hb Hg (u & Hu & Hlt)].
  - exists 0. cbn [app length]. change (128 ^ N.of_nat 0) with 1. rewrite N.add_0_l, N.mul_1_l. split; [exact Hk|lia].
  - exists (b - 128 + 128 * u). cbn [app length]. rewrite Nat2N.inj_succ, N.pow_succ_r by lia. split; [|lia].
    replace b with (128 + (b - 128)) at 1 by lia.
    replace (b - 128 + 128 * u + 128 * 128 ^ N.of_nat (length g) * v)
      with ((b - 128) + 128 * (u + 128 ^ N.of_nat (length g) * v)) by ring.
    constructor; [lia|exact Hu].
Qed.


Lemma cut_app {A} (g x a b : list A) : g ++ x = a ++ b -> (exists y, g = a ++ y /\ b = y ++ x) \/ (exists y, y <> [] /\ a = g ++ y /\ x = y ++ b).
Proof.
  revert a. induction g as [|c g IH]; intros a E; cbn in E.
  - destruct a as [|d a]; cbn in E; [left; exists []; auto|]. right. exists (d :: a). now subst x.
  - destruct a as [|d a]; cbn in E.
    + left. exists (c :: g). subst b. auto.
    + injection E as <- E. destruct (IH a E) as [(y & -> & ->)|(y & Hy & -> & ->)]; [left|right]; exists y; auto.
Qed.

(* A strict, non-empty part of a field, then the field: never that field. *)
Lemma twice_is_not_once m tag t p bs got x : 1 <= tag < 2 ^ 29 -> N.of_nat (length p) < 2 ^ 64 ->
  field_wire (tag, t, p) bs -> bs = got ++ x -> x <> [] -> got <> [] -> ~ field_read m (tag, t, p) (got ++ bs).
Proof.
  intros Ht Hp (n & key & Hn & Hk & Hb) E Hx Hg (key' & (n' & Hk' & Hn' & _) & Hb').
  assert (n' = n) by (destruct t; cbn in Hn, Hn'; subst; reflexivity || contradiction). subst n'. clear Hn'.
  assert (Hv : 8 <= 8 * tag + n < 2 ^ 32).
  { assert (n < 8) by (destruct t; cbn in Hn; subst; reflexivity || contradiction).
    change (2 ^ 29) with 536870912 in Ht. change (2 ^ 32) with 4294967296. lia. }
  set (v := 8 * tag + n) in *. clearbody v.
  assert (Hr : reads m key v) by (apply reads_shortest; [exact Hk|eapply N.lt_trans; [apply Hv|reflexivity]]).
  assert (Hlen5 : (length key <= 5)%nat).
  { apply (shortest_length _ key 4 Hk). eapply N.lt_trans; [apply Hv|reflexivity]. }
  destruct Hk as [Hkl _].
  assert (Body : exists body body', bs = key ++ body /\ got ++ bs = key' ++ body' /\
      (t <> LengthDelimited -> body' = p /\ body = p) /\
      (t = LengthDelimited -> exists len len', reads m len (N.of_nat (length p)) /\ reads m len' (N.of_nat (length p)) /\
         body = len ++ p /\ body' = len' ++ p)).
  { destruct t; try contradiction;
      try (destruct Hb' as [_ Hb']; exists p, p; split; [exact Hb|]; split; [exact Hb'|]; split; [auto|discriminate]).
    destruct Hb as (len & Hs & Hb). destruct Hb' as (len' & Hs' & Hb'). exists (len ++ p), (len' ++ p).
    split; [exact Hb|]. split; [exact Hb'|]. split; [congruence|]. intros _. exists len, len'.
    split; [now apply reads_shortest|]. auto. }
  destruct Body as (body & body' & Eb & Eb' & H1 & H2). clear Hb Hb'.
  rewrite E in Eb. destruct (cut_app got x key body Eb) as [(y & -> & Ey)|(y & Hy & Ek & Ey)].
  - (* the failed call wrote the whole key *)
    rewrite <- app_assoc in Eb'.
    destruct (reads_prefix_free m _ _ _ _ _ _ Hr Hk' Eb') as (<- & _ & Er). clear Eb' Hk'.
    assert (L : (length body' > length body)%nat).
    { rewrite <- Er, !app_length, E, !app_length. pose proof (leb_nonempty _ _ Hkl). destruct key; [congruence|cbn; subst body; rewrite !app_length; lia]. }
    destruct t; try (destruct H1 as [-> ->]; [discriminate|lia]).
    destruct (H2 eq_refl) as (len & len' & Hl & Hl' & -> & ->). clear H1 H2. symmetry in Ey.
    destruct (cut_app y x len p Ey) as [(z & -> & Ez)|(z & Hz & -> & Ez)].
    + rewrite <- app_assoc in Er. destruct (reads_prefix_free m _ _ _ _ _ _ Hl Hl' Er) as (<- & _ & _). rewrite !app_length in L. lia.
    + rewrite E, !app_assoc in Er. rewrite <- app_assoc in Er.
      destruct Hl as ((vl & Hl) & _). pose proof (leb_cut _ _ Hl y z eq_refl Hz) as Hc.
      destruct (leb_in_front y key v Hkl Hc) as (u & Hu & _).
      destruct Hl' as ((vl' & Hl') & _).
      destruct (leb_prefix_free _ _ _ _ _ _ Hu Hl' Er) as (_ & _ & Ep). subst x.
      apply (f_equal (@length N)) in Ep. rewrite !app_length in Ep. destruct z; [congruence|cbn in Ep; lia].
  - (* it stopped inside the key *)
    assert (Hc : continued got) by (apply (leb_cut _ _ Hkl got y); auto).
    assert (Eb2 : (got ++ key) ++ body = key' ++ body') by (rewrite <- Eb', E, Eb; now rewrite app_assoc).
    destruct (leb_in_front got key v Hkl Hc) as (u & Hu & _).
    destruct Hk' as ((vk & Hk') & Hf & _).
    destruct (leb_prefix_free _ _ _ _ _ _ Hu Hk' Eb2) as (<- & _ & _).
    assert (G : (1 <= length got)%nat) by (destruct got; [congruence|cbn; lia]).
    assert (G4 : (length (got ++ key) <= 9)%nat).
    { rewrite app_length. apply (f_equal (@length N)) in Ek. rewrite app_length in Ek. destruct y; [congruence|cbn in Ek; lia]. }
    rewrite (folded_exact _ _ Hu) in Hf.
    + assert (128 <= 128 ^ N.of_nat (length got)) by (change 128 with (128 ^ 1) at 1; apply N.pow_le_mono_r; lia). nia.
    + lia.
    + eapply N.lt_le_trans; [apply (leb_bound _ _ Hu)|]. transitivity (128 ^ 9); [apply N.pow_le_mono_r; lia|].
      vm_compute. discriminate.
Qed.

Lemma decodes_field m bs f : bytes bs -> decodes_to m bs [f] -> field_read m f bs.
Proof.
  intros Hb H. unfold decodes_to in H.
  destruct (decode_fully_total m Start bs [] Hb I) as (a & p1 & hs & rest & o & Ea & Hi & _ & Hp1 & E).
  change (decoder_of Start) with pdecoder_default in E. rewrite H in E. cbn [app] in E. injection E as E1 <- <- _.
  rewrite app_nil_r in Ea. subst a.
  assert (p1 = Start).
  { destruct p1 as [|tag t|tag len]; [reflexivity| |]; cbn in E1; [|discriminate].
    injection E1 as <- <-. destruct Hp1 as [Hp1 _]. lia. }
  subst p1. destruct (items_fields m false Start bs Start [f] Hi [] eq_refl) as (parts & tail & H1 & H2 & H3).
  cbn in H2. subst tail. rewrite app_nil_r in H3. cbn [app] in H3.
  inversion H1 as [|? part ? ps Hf Hn]; subst. inversion Hn; subst. cbn. now rewrite app_nil_r.
Qed.

Section Retry.
Context {W : Type} (write : W -> list N -> W * io_answer).

(* Whatever the earlier calls left, the call that succeeds writes the whole field, and
   the calls before it a strict part of it. *)
Theorem last_attempt fuel tag l t p bs w gots w' o : honest write ->
  1 <= tag < 2 ^ 29 -> lit_ok l -> lit_wire l t p -> N.of_nat (length p) < 2 ^ 64 -> field_wire (tag, t, p) bs ->
  attempts write fuel tag l w gots w' o ->
  exists failed own, gots = failed ++ [own] /\ Forall (fun g => strictly_before g bs) failed /\
    (forall n, o = Ok n -> own = bs /\ n = N.of_nat (length bs)) /\
    (forall e, o = Err e -> e = PInterrupted /\ strictly_before own bs) /\ o <> Panic.
Proof.
  intros Hh Ht Hl Hw Hp Hf. induction 1 as [w w1 got o E|w w1 got gots w2 o E H IH].
  - destruct (encode_any write _ _ _ _ _ _ _ _ _ _ Hh Ht Hl Hw Hp Hf E) as (tr & _ & _ & S).
    exists [], got. split; [reflexivity|]. split; [constructor|]. split; [intros n ->; tauto|]. split; [intros e ->; tauto|].
    intros ->. exact S.
  - destruct (encode_any write _ _ _ _ _ _ _ _ _ _ Hh Ht Hl Hw Hp Hf E) as (tr & _ & _ & _ & S & _).
    destruct IH as (failed & own & -> & Hfd & R). exists (got :: failed), own. split; [reflexivity|]. split; [now constructor|exact R].
Qed.

(* One failed call, then one that succeeds. *)
Theorem retried_once m fuel tag l t p bs w w1 got w2 got2 n : honest write ->
  1 <= tag < 2 ^ 29 -> lit_ok l -> lit_wire l t p -> N.of_nat (length p) < 2 ^ 64 -> field_wire (tag, t, p) bs ->
  encode_to write fuel tag l w = ((w1, got), Err PInterrupted) ->
  encode_to write fuel tag l w1 = ((w2, got2), Ok n) ->
  (decodes_to m (got ++ got2) [(tag, t, p)] <-> got = []).
Proof.
  intros Hh Ht Hl Hw Hp Hf E1 E2.
  destruct (encode_any write _ _ _ _ _ _ _ _ _ _ Hh Ht Hl Hw Hp Hf E1) as (_ & _ & _ & _ & (x & Hx & Ex) & _).
  destruct (encode_any write _ _ _ _ _ _ _ _ _ _ Hh Ht Hl Hw Hp Hf E2) as (_ & _ & _ & -> & _ & _).
  assert (Hb : bytes bs) by (eapply field_wire_bytes; [|exact Hf]; eapply lit_wire_bytes; eauto).
  split.
  - intros H. destruct got as [|g got]; [reflexivity|exfalso].
    apply decodes_field in H.
    + revert H. apply (twice_is_not_once m tag t p bs (g :: got) x); auto. discriminate.
    + apply bytes_app. split; [|exact Hb]. rewrite Ex in Hb. now apply bytes_app in Hb.
  - intros ->. cbn [app]. unfold decodes_to. rewrite <- (app_nil_r bs). change (bs ++ []) with (concat [bs]).
    rewrite (decode_message_fully m [(tag, t, p)] [bs] []); [reflexivity|repeat constructor; exact Hf|].
    constructor; [|constructor]. cbn. split; [exact Ht|]. now apply (lit_wire_payload l).
Qed.
End Retry.
