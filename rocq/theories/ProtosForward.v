(* Forwarding protobuf fields without a schema.  The environment is not code of the
   repository: a caller that decodes a message and writes every field again, knowing only
   its wire type. *)
From Verif Require Import Base Leb ProtosModel ProtosSpec ProtosApi ProtosNum ProtosEnc ProtosConv ProtosDec ProtosDerived ProtosMore ProtosIo ProtosIoProofs.
Open Scope N_scope.

(* ------------------------------------------------------------------ *)
(* Specification vocabulary. *)

(* The literal a forwarder chooses, by wire type: uint64, fixed32, fixed64 or bytes. *)
Definition forward_lit (m : mode) (f : pfield) : outcome pdec_error (N * encoder_lit) :=
  let '(tag, t, p) := f in
  match t with
  | Varint => v <- to_u64 m (DUInt64 p) ;; Ok (tag, EUInt64 v)
  | Bit32 => v <- to_u32 m (DFixed32 p) ;; Ok (tag, EFixed32 v)
  | Bit64 => v <- to_u64 m (DFixed64 p) ;; Ok (tag, EFixed64 v)
  | LengthDelimited => Ok (tag, EBytes (to_u8_vec (DBytes p)))
  | Unknown => Err PInvalidInput              (* decode does not emit it (C48) *)
  end.

Fixpoint forward_all (m : mode) (fs : list pfield) : outcome pdec_error (list (N * encoder_lit)) :=
  match fs with
  | [] => Ok []
  | f :: fs' => g <- forward_lit m f ;; gs <- forward_all m fs' ;; Ok (g :: gs)
  end.

(* Two payloads of varint fields read the same whatever the schema says. *)
Definition same_varint (m : mode) (p : list N) (m' : mode) (p' : list N) : Prop :=
  to_bool m (DBool p) = to_bool m' (DBool p') /\
  to_i32 m (DInt32 p) = to_i32 m' (DInt32 p') /\ to_i32 m (DSInt32 p) = to_i32 m' (DSInt32 p') /\
  to_i64 m (DInt64 p) = to_i64 m' (DInt64 p') /\ to_i64 m (DSInt64 p) = to_i64 m' (DSInt64 p') /\
  to_u32 m (DUInt32 p) = to_u32 m' (DUInt32 p') /\ to_u64 m (DUInt64 p) = to_u64 m' (DUInt64 p').

(* Same field number, wire type and value; the payload itself, if not a varint. *)
Definition same_field (m m' : mode) (f f' : pfield) : Prop :=
  fst f = fst f' /\
  match snd (fst f) with
  | Varint => same_varint m (snd f) m' (snd f')
  | _ => snd f = snd f'
  end.

(* ------------------------------------------------------------------ *)
Lemma reads_same m p m' p' v : reads m p v -> reads m' p' v -> same_varint m p m' p'.
Proof.
  intros H H'. pose proof (pdecode_varint_value m p v [] H) as E. pose proof (pdecode_varint_value m' p' v [] H') as E'.
  rewrite app_nil_r in E, E'.
  unfold same_varint, to_bool, to_i32, to_i64, to_u32, to_u64, get_bool, get_int32, get_sint32, get_int64, get_sint64, get_uint32,
    get_uint64, on_varint. rewrite E, E'. repeat split.
Qed.

Lemma shape_reads m p : varint_shape p -> (m = Debug -> (length p <= 10)%nat) -> reads m p (folded 0 p).
Proof. intros H Hm. split; [exact H|]. auto. Qed.

Lemma reads_shorter m bs v bs' : reads m bs v -> shortest v bs' -> (length bs' <= length bs)%nat.
Proof.
  intros Hr Hs. pose proof (reads_bound _ _ _ Hr) as Hb. pose proof (shortest64_length v bs' Hs Hb) as [_ Hl].
  destruct (le_gt_dec (length bs) 10) as [H10|H10]; [|lia].
  destruct Hr as ((w & Hw) & -> & _). rewrite (folded_value bs w Hw 0) in Hs by lia.
  rewrite N.mul_0_r, N.pow_0_r, N.mul_1_r in Hs.
  pose proof (leb_bound bs w Hw) as Hw2. assert (N : w mod 2 ^ 64 <= w) by (apply N.mod_le; discriminate).
  pose proof (leb_nonempty bs w Hw) as Hne. destruct bs as [|b0 bs]; [congruence|]. cbn [length] in *.
  apply (shortest_length _ _ _ Hs). eapply N.le_lt_trans; [exact N|exact Hw2].
Qed.

Lemma shape_bytes p : varint_shape p -> bytes p.
Proof. intros [v H]. exact (leb_bytes p v H). Qed.

(* What forwarding one emitted field does. *)
Inductive forwards (m : mode) : pfield -> N * encoder_lit -> Prop :=
| fw_varint tag p v : reads m p v -> forwards m (tag, Varint, p) (tag, EUInt64 v)
| fw_bit32 tag p v : little 4 v p -> forwards m (tag, Bit32, p) (tag, EFixed32 v)
| fw_bit64 tag p v : little 8 v p -> forwards m (tag, Bit64, p) (tag, EFixed64 v)
| fw_bytes tag p : forwards m (tag, LengthDelimited, p) (tag, EBytes p).

Lemma forward_one m f bs : field_read m f bs -> bytes bs ->
  (exists g, forward_lit m f = Ok g /\ forwards m f g) \/
  (forward_lit m f = Panic /\ m = Debug /\ snd (fst f) = Varint /\ (10 < length (snd f))%nat).
Proof.
  destruct f as [[tag t] p]. intros (key & _ & H) Hb. destruct t; cbn [forward_lit].
  - destruct H as [Hs _]. pose proof (shape_bytes p Hs) as Bp. cbn [fst snd].
    assert (D : (m = Debug -> (length p <= 10)%nat) \/ (m = Debug /\ (10 < length p)%nat)).
    { destruct m; [|left; discriminate]. destruct (le_gt_dec (length p) 10); [left; auto|right; auto]. }
    destruct D as [D|[Hm D]].
    + left. pose proof (shape_reads m p Hs D) as Hr.
      pose proof (pdecode_varint_value m p _ [] Hr) as E. rewrite app_nil_r in E.
      unfold to_u64, get_uint64, on_varint. rewrite E. cbn. eexists. split; [reflexivity|]. now constructor.
    + right. split; [|auto]. pose proof (to_u64_spec m (DUInt64 p) Bp) as (_ & _ & Hp & _).
      rewrite Hp; [reflexivity|]. split; [exact Hm|].
      exists (firstn 10 p), (skipn 10 p). split; [now rewrite firstn_skipn|].
      assert (L : length (firstn 10 p) = 10%nat) by (rewrite firstn_length; lia).
      assert (Ne : skipn 10 p <> []).
      { intros E. pose proof (firstn_skipn 10 p) as E2. rewrite E, app_nil_r in E2. rewrite E2 in L. lia. }
      split; [|auto]. rewrite <- (firstn_skipn 10 p) in Hs. exact (shape_cut _ _ Ne Hs).
  - destruct H as [Hl ->]. apply bytes_app in Hb as [_ Bp]. left.
    pose proof (to_u64_spec m (DFixed64 p) Bp) as (Hv & _).
    assert (L : little 8 (le_value p) p) by (repeat split; auto).
    rewrite (Hv (le_value p) p [] ltac:(now rewrite app_nil_r) L). eexists. split; [reflexivity|]. now constructor.
  - destruct H as (len & _ & ->). left. eexists. split; [reflexivity|]. constructor.
  - destruct H as [Hl ->]. apply bytes_app in Hb as [_ Bp]. left.
    pose proof (to_u32_spec m (DFixed32 p) Bp) as (Hv & _).
    assert (L : little 4 (le_value p) p) by (repeat split; auto).
    rewrite (Hv (le_value p) p [] ltac:(now rewrite app_nil_r) L). eexists. split; [reflexivity|]. now constructor.
  - elim H.
Qed.

Lemma little_bound k v p : little k v p -> v < 256 ^ N.of_nat k.
Proof. intros (<- & Hb & <-). now apply le_value_bound. Qed.

Lemma bytes_length_field m f bs : field_read m f bs -> (length (snd f) <= length bs)%nat.
Proof.
  destruct f as [[tag t] p]. intros (key & _ & H). cbn [snd]. destruct t; try (destruct H as [_ ->]; rewrite app_length; lia); [|elim H].
  destruct H as (len & _ & ->). rewrite !app_length. lia.
Qed.

Lemma forwards_good m f bs g : field_read m f bs -> bytes bs -> N.of_nat (length bs) < 2 ^ 64 -> forwards m f g -> good_field g.
Proof.
  intros Hr Hb Hl Hf. pose proof (bytes_length_field m f bs Hr) as Hp.
  destruct f as [[tag t] p]. destruct (field_read_valid m tag t p bs Hr) as [Ht _]. cbn [snd] in Hp.
  inversion Hf; subst; (refine (conj Ht (conj _ _)); cbn [snd lit_ok]).
  - match goal with H : reads _ _ _ |- _ => exact (reads_bound _ _ _ H) end.
  - intros t0 p0 [_ H0]. pose proof (shortest64_length _ _ H0 ltac:(match goal with H : reads _ _ _ |- _ => exact (reads_bound _ _ _ H) end)) as [_ L].
    eapply N.le_lt_trans with 10; [lia|reflexivity].
  - match goal with H : little _ _ _ |- _ => exact (little_bound _ _ _ H) end.
  - intros t0 p0 [_ (L & _)]. rewrite L. reflexivity.
  - match goal with H : little _ _ _ |- _ => exact (little_bound _ _ _ H) end.
  - intros t0 p0 [_ (L & _)]. rewrite L. reflexivity.
  - destruct Hr as (key & _ & len & _ & ->). apply bytes_app in Hb as [_ Hb]. now apply bytes_app in Hb.
  - intros t0 p0 [_ ->]. lia.
Qed.

Lemma forwards_same m f g w : forwards m f g -> carries g w -> forall m', same_field m m' f w.
Proof.
  intros Hf (Et & Hw) m'. destruct w as [[tag' t'] p']. inversion Hf; subst; cbn [fst snd] in *; destruct Hw as [-> Hw]; subst tag'; split; cbn [fst snd]; auto.
  - eapply reads_same; [eassumption|]. apply reads_shortest; [exact Hw|]. eapply reads_bound; eassumption.
  - eapply little_unique; eassumption.
  - eapply little_unique; eassumption.
Qed.

Lemma wire_number_fun t n n' : wire_number t n -> wire_number t n' -> n = n'.
Proof. unfold wire_number. destruct t; intros H H2; congruence || (destruct H). Qed.

Lemma forwards_shorter m f bs g w bs' : field_read m f bs -> forwards m f g -> carries g w -> field_wire w bs' -> (length bs' <= length bs)%nat.
Proof.
  intros Hr Hf Hc Hw.
  destruct (forwards_same m f g w Hf Hc m) as [Ef _].
  destruct w as [[tag' t'] p'], f as [[tag t] p]. cbn [fst] in Ef. injection Ef as <- <-.
  destruct Hw as (n & key' & Hn & Hk & Hw), Hr as (key & (n2 & Hkr & Hn2 & _) & Hr).
  rewrite (wire_number_fun _ _ _ Hn2 Hn) in Hkr.
  pose proof (reads_shorter _ _ _ _ Hkr Hk) as L. destruct g as [tg l]. destruct Hc as (Et & Hl). cbn [fst snd] in *. clear Et.
  inversion Hf; subst; cbn [fst snd lit_wire] in *; destruct Hl as [_ Hl].
  - destruct Hr as [_ ->]. subst. rewrite !app_length.
    match goal with H : reads _ p _ |- _ => pose proof (reads_shorter _ _ _ _ H Hl) end. lia.
  - destruct Hr as [Lp ->]. subst. destruct Hl as [Lp' _]. rewrite !app_length. lia.
  - destruct Hr as [Lp ->]. subst. destruct Hl as [Lp' _]. rewrite !app_length. lia.
  - destruct Hr as (len & Hlr & ->). destruct Hw as (len' & Hls & ->). subst p'.
    pose proof (reads_shorter _ _ _ _ Hlr Hls). rewrite !app_length. lia.
Qed.

(* ------------------------------------------------------------------ *)
(* Whole messages. *)
Lemma forward_list m fs parts : Forall2 (field_read m) fs parts -> bytes (concat parts) ->
  (exists gs, forward_all m fs = Ok gs /\ Forall2 (forwards m) fs gs) \/
  (forward_all m fs = Panic /\ m = Debug /\ Exists (fun f => snd (fst f) = Varint /\ (10 < length (snd f))%nat) fs).
Proof.
  induction 1 as [|f bs fs parts Hr H IH]; intros Hb; [left; exists []; split; [reflexivity|constructor]|].
  cbn [concat] in Hb. apply bytes_app in Hb as [Hb Hbs]. cbn [forward_all].
  destruct (forward_one m f bs Hr Hb) as [(g & -> & Hg)|(-> & Hm & Hv)]; cbn [bind].
  - destruct (IH Hbs) as [(gs & -> & Hgs)|(-> & Hm & Hx)]; cbn [bind].
    + left. eexists. split; [reflexivity|]. now constructor.
    + right. split; [reflexivity|]. split; [exact Hm|]. now apply Exists_cons_tl.
  - right. split; [reflexivity|]. split; [exact Hm|]. now apply Exists_cons_hd.
Qed.

Lemma fields_of m b dst d rest dst1 o : bytes b -> decode_fully m pdecoder_default b dst = ((d, rest, dst1), o) ->
  exists fs parts more, dst1 = dst ++ fs /\ Forall2 (field_read m) fs parts /\ b = concat parts ++ more.
Proof.
  intros Hb E. destruct (decode_fully_total m Start b dst Hb I) as (a & p1 & hs & rest' & o' & Eb & Hi & _ & _ & E').
  change (decoder_of Start) with pdecoder_default in E'. rewrite E in E'. injection E' as -> -> -> ->.
  destruct (items_fields m false Start a p1 hs Hi [] eq_refl) as (parts & tail & H1 & _ & H3). cbn [app] in H3.
  exists hs, parts, (tail ++ rest'). split; [reflexivity|]. split; [exact H1|]. rewrite Eb, H3, app_assoc. reflexivity.
Qed.

Lemma Forall2_3 {A B C} (R : A -> B -> Prop) (S : B -> C -> Prop) (T : A -> C -> Prop) :
  (forall a b c, R a b -> S b c -> T a c) -> forall la lb lc, Forall2 R la lb -> Forall2 S lb lc -> Forall2 T la lc.
Proof.
  intros H la lb lc H1. revert lc. induction H1; intros lc H2; inversion H2; subst; constructor; eauto.
Qed.

Theorem forward_message m b d rest fs o gs : bytes b -> N.of_nat (length b) < 2 ^ 64 ->
  decode_fully m pdecoder_default b [] = ((d, rest, fs), o) -> forward_all m fs = Ok gs ->
  exists bs fs',
    (forall pre, encode_message gs (vec_sink pre) = (vec_sink (pre ++ bs), Ok (N.of_nat (length bs)))) /\
    (length bs <= length b)%nat /\
    forall m', (forall dst, decode_fully m' pdecoder_default bs dst = ((pdecoder_default, [], dst ++ fs'), Ok tt)) /\
      Forall2 (same_field m m') fs fs' /\ forward_all m' fs' = Ok gs.
Proof.
  intros Hb Hl E Eg. destruct (fields_of m b [] d rest fs o Hb E) as (fs0 & parts & more & E0 & Hr & ->). cbn [app] in E0. subst fs0.
  apply bytes_app in Hb as [Hb _]. rewrite app_length in *.
  destruct (forward_list m fs parts Hr Hb) as [(gs' & E' & Hf)|(E' & _)]; [|congruence].
  rewrite E' in Eg. injection Eg as ->.
  assert (Hg : Forall good_field gs).
  { assert (Hl' : N.of_nat (length (concat parts)) < 2 ^ 64) by lia. clear - Hr Hf Hb Hl'. revert gs Hf.
    induction Hr as [|f bs fs parts Hr H IH]; intros gs Hf; inversion Hf; subst; constructor.
    - cbn [concat] in *. rewrite app_length in Hl'. apply bytes_app in Hb as [Hb _].
      eapply forwards_good; [exact Hr|exact Hb| |eassumption]. lia.
    - cbn [concat] in *. rewrite app_length in Hl'. apply bytes_app in Hb as [_ Hb]. apply IH; [exact Hb|lia|assumption]. }
  destruct (fields_exist gs Hg) as (ws & parts' & Hc & Hw). exists (concat parts'), ws.
  split; [intros pre; now rewrite (encode_message_spec gs ws parts' Hg Hc Hw)|]. split.
  - assert (L : (length (concat parts') <= length (concat parts))%nat); [|lia].
    clear - Hr Hf Hc Hw. revert gs ws parts' Hf Hc Hw.
    induction Hr as [|f bs fs parts Hr H IH]; intros gs ws parts' Hf Hc Hw; inversion Hf; subst; inversion Hc; subst; inversion Hw; subst;
      [cbn; lia|]. cbn [concat]. rewrite !app_length.
    match goal with H1 : forwards _ f _, H2 : carries _ ?w, H3 : field_wire ?w _ |- _ =>
      pose proof (forwards_shorter m f bs _ _ _ Hr H1 H2 H3) end.
    match goal with H1 : Forall2 (forwards m) fs _, H2 : Forall2 carries _ _, H3 : Forall2 field_wire _ _ |- _ =>
      pose proof (IH _ _ _ H1 H2 H3) end. lia.
  - intros m'.
    assert (Hp : Forall (fun f => 1 <= fst (fst f) < 2 ^ 29 /\ payload_ok (snd (fst f)) (snd f)) ws).
    { pose proof (carried_ok false gs ws Hg ltac:(discriminate) Hc) as H. eapply Forall_impl; [|exact H]. cbn. tauto. }
    split; [intros dst; exact (decode_message_fully m' ws parts' dst Hw Hp)|]. split.
    + eapply Forall2_3; [|exact Hf|exact Hc]. intros f g w H1 H2. exact (forwards_same m f g w H1 H2 m').
    + clear - Hf Hc Hg. revert ws Hc. induction Hf as [|f g fs gs Hfg Hf IH]; intros ws Hc; inversion Hc; subst; [reflexivity|].
      inversion Hg as [|? ? (Ht & Hl & _) Hg']; subst. cbn [forward_all].
      match goal with H : carries g ?w |- _ => assert (Hone : forward_lit m' w = Ok g) end.
      { match goal with H : carries g ?w |- _ => destruct w as [[tag' t'] p']; destruct H as (Et & Hw) end.
        pose proof (reads_back_all m' (snd g) t' p' Hl Hw) as Hrb.
        inversion Hfg; subst; cbn [fst snd lit_wire reads_back] in *; destruct Hw as [-> Hw]; subst tag'; cbn [forward_lit].
        - rewrite Hrb. reflexivity.
        - rewrite Hrb. reflexivity.
        - rewrite Hrb. reflexivity.
        - rewrite Hrb. reflexivity. }
      rewrite Hone. cbn [bind]. rewrite (IH Hg' _ ltac:(eassumption)). reflexivity.
Qed.

(* Forwarding fails only on varints of more than ten octets, in debug builds. *)
Theorem forward_verdict m b d rest fs o : bytes b -> decode_fully m pdecoder_default b [] = ((d, rest, fs), o) ->
  (exists gs, forward_all m fs = Ok gs /\ List.length gs = List.length fs) \/
  (forward_all m fs = Panic /\ m = Debug /\ Exists (fun f => snd (fst f) = Varint /\ (10 < length (snd f))%nat) fs).
Proof.
  intros Hb E. destruct (fields_of m b [] d rest fs o Hb E) as (fs0 & parts & more & E0 & Hr & ->). cbn [app] in E0. subst fs0.
  apply bytes_app in Hb as [Hb _].
  destruct (forward_list m fs parts Hr Hb) as [(gs & E' & Hf)|H]; [|right; exact H].
  left. exists gs. split; [exact E'|]. clear - Hf. induction Hf; cbn; congruence.
Qed.

(* A message that an encoder of this crate produced is forwarded octet by octet. *)
Lemma varint_payload f w : good_field f -> carries f w -> snd (fst w) = Varint -> exists v, v < 2 ^ 64 /\ shortest v (snd w).
Proof.
  destruct f as [tag l], w as [[tag' t] p]. intros (_ & Hl & _) (_ & Hw) Ht. cbn [fst snd] in *. subst t.
  destruct l; cbn [lit_wire] in Hw; destruct Hw as [E Hw]; try discriminate E; cbn [lit_ok] in Hl.
  - exists (if v then 1 else 0). split; [destruct v; reflexivity|exact Hw].
  - destruct Hw as (n & [Hn _] & Hs). eauto.
  - destruct Hw as (n & [Hn _] & Hs). eauto.
  - exists v. split; [|exact Hw]. unfold u32_ok in Hl. eapply N.lt_trans; [exact Hl|reflexivity].
  - exists v. split; [exact Hl|exact Hw].
  - exists (zigzag v). split; [|exact Hw]. eapply N.lt_trans; [apply (zigzag_bound 32); [lia|exact Hl]|reflexivity].
  - exists (zigzag v). split; [|exact Hw]. apply zigzag_bound; [lia|exact Hl].
Qed.

Lemma forwards_carries m f w g : good_field f -> carries f w -> forwards m w g -> carries g w.
Proof.
  intros Hg Hc Hf. pose proof (varint_payload f w Hg Hc) as Hv. inversion Hf; subst; split; cbn [fst snd lit_wire]; try reflexivity; split; try reflexivity; try assumption.
  destruct (Hv eq_refl) as (v' & Hb & Hs). cbn [snd] in Hs.
  pose proof (reads_shortest m p v' Hs Hb) as H'. destruct (reads_prefix_free m p v p v' [] [] H H' eq_refl) as (_ & <- & _). exact Hs.
Qed.

Theorem forward_identity m fs ws parts : Forall good_field fs -> Forall2 carries fs ws -> Forall2 field_wire ws parts ->
  N.of_nat (length (concat parts)) < 2 ^ 64 ->
  exists gs, forward_all m ws = Ok gs /\
    encode_message gs (vec_sink []) = (vec_sink (concat parts), Ok (N.of_nat (length (concat parts)))).
Proof.
  intros Hg Hc Hw Hl.
  assert (Hp : Forall (fun f => 1 <= fst (fst f) < 2 ^ 29 /\ payload_ok (snd (fst f)) (snd f)) ws).
  { pose proof (carried_ok false fs ws Hg ltac:(discriminate) Hc) as H. eapply Forall_impl; [|exact H]. cbn. tauto. }
  pose proof (decode_message_fully m ws parts [] Hw Hp) as E. pose proof (parts_bytes fs ws parts Hg Hc Hw) as Hb.
  destruct (fields_of m (concat parts) [] _ _ _ _ Hb E) as (fs0 & parts2 & more & E0 & Hr & Ep). cbn [app] in E0. subst fs0.
  rewrite Ep in Hb, Hl. apply bytes_app in Hb as [Hb _]. rewrite app_length in Hl.
  destruct (forward_list m ws parts2 Hr Hb) as [(gs & E' & Hf)|(E' & _ & Hx)].
  - exists gs. split; [exact E'|].
    assert (Hgs : Forall good_field gs).
    { assert (Hl' : N.of_nat (length (concat parts2)) < 2 ^ 64) by lia. clear - Hr Hf Hb Hl'. revert gs Hf.
      induction Hr as [|f bs fs parts Hr H IH]; intros gs Hf; inversion Hf; subst; constructor.
      - cbn [concat] in *. rewrite app_length in Hl'. apply bytes_app in Hb as [Hb _].
        eapply forwards_good; [exact Hr|exact Hb| |eassumption]. lia.
      - cbn [concat] in *. rewrite app_length in Hl'. apply bytes_app in Hb as [_ Hb]. apply IH; [exact Hb|lia|assumption]. }
    assert (Hc' : Forall2 carries gs ws).
    { clear - Hg Hc Hf. revert gs Hf. induction Hc as [|f w fs ws Hfw Hc IH]; intros gs Hf; inversion Hf; subst; [constructor|].
      inversion Hg; subst. constructor; [eapply forwards_carries; eassumption|]. apply IH; assumption. }
    now rewrite (encode_message_spec gs ws parts Hgs Hc' Hw).
  - exfalso. apply Exists_exists in Hx as (w & Hin & Ht & Hlen).
    clear - Hg Hc Hin Ht Hlen. induction Hc as [|f w0 fs ws Hfw Hc IH]; [elim Hin|].
    inversion Hg as [|? ? Hg1 Hg2]; subst. destruct Hin as [->|Hin]; [|exact (IH Hg2 Hin)].
    destruct (varint_payload f w Hg1 Hfw Ht) as (v & Hv & Hs). pose proof (shortest64_length v _ Hs Hv). lia.
Qed.
