(* C107: what a protobuf decoder waits for. *)
From Verif Require Import Base Leb ProtosModel ProtosSpec ProtosApi ProtosNum ProtosEnc ProtosConv ProtosDec ProtosDerived ProtosMore.
Open Scope N_scope.

(* ------------------------------------------------------------------ *)
(* Specification vocabulary. *)

(* A call that does nothing: no octet taken, no field delivered, no error. *)
Definition call_waits (m : mode) (d : pdecoder) (buf : list N) : Prop :=
  forall dst, pdecode m d buf dst = ((d, buf, dst), Ok 0).

(* The full statement: what is left in the buffer is less than a varint (ten octets), a fixed
   value (eight) or the payload announced takes. *)
Definition waits_briefly (m : mode) : Prop := forall p buf, bytes buf -> idle p ->
  call_waits m (decoder_of p) buf ->
  (List.length buf < 10)%nat \/ exists tag n, p = GotLen tag n /\ N.of_nat (List.length buf) < n.

(* ------------------------------------------------------------------ *)
(* It fails in both builds: a varint in a field is waited for however long it is; *)
Theorem C107_varint_refuted : forall m n,
  (forall dst, pdecode m pdecoder_default (8 :: repeat 128 n) dst = ((decoder_of (GotKey 1 Varint), repeat 128 n, dst), Ok 1)) /\
  call_waits m (decoder_of (GotKey 1 Varint)) (repeat 128 n).
Proof.
  intros m n.
  assert (C : continued (repeat 128 n)) by (apply Forall_forall; intros x Hx; apply repeat_spec in Hx; subst x; lia).
  assert (I : item m Start [8] (GotKey 1 Varint) []).
  { apply (item_key m [8] 1 Varint 0); [|reflexivity|lia].
    split; [exists 8; constructor; lia|]. split; [reflexivity|]. intros _. cbn. lia. }
  split; intros dst.
  - pose proof (pdecode_run m Start [8] (GotKey 1 Varint) [] (repeat 128 n) (GotKey 1 Varint) [] (Ok tt) dst) as X.
    rewrite !app_nil_r in X. refine (X _ _).
    + refine (items_cons m true _ [8] _ [] [] _ [] I _ _); [discriminate|constructor].
    + constructor. constructor. exact C.
  - pose proof (pdecode_run m (GotKey 1 Varint) [] (GotKey 1 Varint) [] (repeat 128 n) (GotKey 1 Varint) [] (Ok tt) dst) as X.
    rewrite !app_nil_r in X. refine (X (items_nil _ _ _) _). constructor. constructor. exact C.
Qed.
Print Assumptions C107_varint_refuted.

Theorem C107_refuted : forall m, ~ waits_briefly m.
Proof.
  intros m H. destruct (C107_varint_refuted m 10) as (_ & W).
  destruct (H (GotKey 1 Varint) (repeat 128 10) ltac:(repeat constructor) ltac:(cbn; split; [lia|discriminate]) W) as [X|(tag & n & X & _)];
    [cbn in X; lia|discriminate X].
Qed.
Print Assumptions C107_refuted.

(* What does hold, exactly: the decoder waits just when the buffer holds continuation octets
   only and a key, a length or a varint is due (of at most ten octets in a debug build, unless
   it is a varint field), or less than the fixed size or the length announced. *)
Theorem C107_exactly_partial : forall m p buf, bytes buf -> idle p ->
  (call_waits m (decoder_of p) buf <->
   match p with
   | Start | GotKey _ LengthDelimited => Forall (fun b => 128 <= b) buf /\ (m = Debug -> (List.length buf <= 10)%nat)
   | GotKey _ Varint => Forall (fun b => 128 <= b) buf
   | GotKey _ Bit32 => (List.length buf < 4)%nat
   | GotKey _ Bit64 => (List.length buf < 8)%nat
   | GotKey _ Unknown => False
   | GotLen _ n => N.of_nat (List.length buf) < n
   end).
Proof.
  intros m p buf Hb Hp.
  assert (C : Forall (fun b => 128 <= b) buf <-> continued buf).
  { unfold continued. split; intros H; apply Forall_forall; intros x Hx.
    - pose proof (proj1 (Forall_forall _ _) H x Hx). pose proof (proj1 (Forall_forall _ _) Hb x Hx) as Bx. unfold is_byte in Bx. cbn in *. lia.
    - apply (proj1 (Forall_forall _ _) H x Hx). }
  assert (W : call_waits m (decoder_of p) buf <-> waiting m p buf).
  { split; intros H.
    - destruct (pdecode_total m p buf [] Hb (idle_sane p Hp)) as (a & p1 & hs & rest & p2 & hs2 & o & E & Ha & Hc & Hd).
      rewrite (H []) in Hd. pose proof (f_equal (fun z => snd (fst (fst z))) Hd) as D1.
      pose proof (f_equal (fun z => snd (fst z)) Hd) as D2. pose proof (f_equal snd Hd) as D3. cbn [fst snd app] in D1, D2, D3.
      subst rest. assert (a = []) as ->.
      { destruct a; [reflexivity|]. pose proof (f_equal (@List.length N) E) as L. cbn in L. rewrite app_length in L. lia. }
      symmetry in D2. apply app_eq_nil in D2 as [-> ->].
      assert (p1 = p) as ->.
      { remember [] as z in Ha. destruct Ha as [q|q bs p1 h bs' q2 hs Hi Hne Hr]; [reflexivity|].
        destruct bs; [now elim (Hne eq_refl)|discriminate]. }
      inversion Hc; subst. match goal with H : halt _ _ _ _ |- _ => inversion H; subst; cbn in D3; try discriminate; assumption end.
    - intros dst. pose proof (pdecode_run m p [] p [] buf p [] (Ok tt) dst (items_nil _ _ _)) as X.
      rewrite !app_nil_r in X. refine (X _). constructor. constructor. exact H. }
  rewrite W. destruct p as [|tag t|tag n]; cbn [waiting]; [|destruct t|]; rewrite ?C; reflexivity.
Qed.
Print Assumptions C107_exactly_partial.

(* So in a debug build a key or a length is waited for with one octet too many at most (ten),
   and in no build a fixed value or a payload with more than the full statement says. *)
Theorem C107_bounded_partial : forall m p buf, bytes buf -> idle p -> call_waits m (decoder_of p) buf ->
  (List.length buf <= 10)%nat \/ (exists tag n, p = GotLen tag n /\ N.of_nat (List.length buf) < n) \/
  Forall (fun b => 128 <= b) buf /\ ((exists tag, p = GotKey tag Varint) \/
    m = Release /\ (p = Start \/ exists tag, p = GotKey tag LengthDelimited)).
Proof.
  intros m p buf Hb Hp H. apply C107_exactly_partial in H; auto.
  destruct p as [|tag t|tag n]; [|destruct t|]; try (left; lia); try contradiction.
  - destruct H as [H1 H2]. destruct m; [left; auto|]. right. right. auto.
  - right. right. eauto.
  - destruct H as [H1 H2]. destruct m; [left; auto|]. right. right. split; eauto.
  - right. left. eauto.
Qed.
Print Assumptions C107_bounded_partial.

Example C107_case : forall m,
  call_waits m (decoder_of (GotLen 2 (2 ^ 64 - 1))) [1; 2; 3] /\ idle (GotLen 2 (2 ^ 64 - 1)) /\
  call_waits m (decoder_of (GotKey 1 Varint)) (repeat 200 30) /\
  call_waits Release (decoder_of Start) (repeat 200 30) /\
  snd (pdecode Debug (decoder_of Start) (repeat 200 30) []) = Panic.
Proof.
  intros m. refine (conj _ (conj _ (conj _ (conj _ _)))); [intros dst; destruct m; reflexivity|cbn; lia| | |];
    try (intros dst; destruct m; reflexivity). reflexivity.
Qed.
