(* C104: what a protobuf decoder remembers between calls. *)
From Verif Require Import Base Leb ProtosModel ProtosSpec ProtosApi ProtosNum ProtosEnc ProtosConv ProtosDec ProtosDerived ProtosMore.
Open Scope N_scope.

(* ------------------------------------------------------------------ *)
(* Specification vocabulary. *)

(* What a caller sees of a call: octets left, fields, result. *)
Definition panswer (x : pdecoder * list N * list pfield * outcome pdec_error N) : list N * list pfield * outcome pdec_error N :=
  let '((_, rest, fs), o) := x in (rest, fs, o).

(* The decoder after calls of decode on any buffers, related or not, whatever they returned. *)
Definition after_calls (m : mode) (bufs : list (list N)) : pdecoder :=
  fold_left (fun d b => fst (fst (fst (pdecode m d b [])))) bufs pdecoder_default.

(* ------------------------------------------------------------------ *)
Definition zeros (k : nat) : list N := repeat 0 k.
Lemma zeros_bytes k : bytes (zeros k).
Proof. apply Forall_forall. intros x H. apply repeat_spec in H. subst. reflexivity. Qed.
Lemma zeros_split j k : (j <= k)%nat -> zeros k = zeros j ++ zeros (k - j).
Proof. intros H. unfold zeros. rewrite <- repeat_app. f_equal. lia. Qed.
Lemma zeros_length k : length (zeros k) = k. Proof. apply repeat_length. Qed.

(* What completes the field in progress, in zero octets, and the field this gives. *)
Definition need (p : pending) : nat :=
  match p with
  | Start => 0
  | GotKey _ Bit32 => 4
  | GotKey _ Bit64 => 8
  | GotKey _ _ => 1
  | GotLen _ n => N.to_nat n
  end.
Definition gives (p : pending) : pfield :=
  match p with
  | Start => (0, Unknown, [])
  | GotKey tag LengthDelimited => (tag, LengthDelimited, [])
  | GotKey tag t => (tag, t, zeros (need p))
  | GotLen tag n => (tag, LengthDelimited, zeros (N.to_nat n))
  end.

Lemma need_pos p : idle p -> p <> Start -> (1 <= need p)%nat.
Proof. destruct p as [|tag t|tag n]; cbn; intros H Hs; [congruence| |]; [destruct t; lia|lia]. Qed.

Lemma zero_key : forall m x dst, pdecode m pdecoder_default (0 :: x) dst = ((pdecoder_default, 0 :: x, dst), Err PInvalidInput).
Proof.
  intros m x dst.
  pose proof (pdecode_run m Start [] Start [] (0 :: x) Start [] (Err PInvalidInput) dst (items_nil _ _ _)) as H.
  cbn [app decoder_of] in H. rewrite app_nil_r in H. apply H.
  apply ends_halt. apply (halt_bad_key m [0] 0 x).
  - split; [exists 0; constructor; lia|split; [reflexivity|intros _; cbn; lia]].
  - right. left. reflexivity.
Qed.

(* Fewer octets than needed are left alone; the right number gives the field; *)
Lemma zeros_few m p k dst : idle p -> p <> Start -> (k < need p)%nat ->
  panswer (pdecode m (decoder_of p) (zeros k) dst) = (zeros k, dst, Ok 0).
Proof.
  intros Hi Hs Hk.
  pose proof (pdecode_run m p [] p [] (zeros k) p [] (Ok tt) dst (items_nil _ _ _)) as R.
  cbn [app] in R. rewrite R.
  - cbn [panswer]. now rewrite app_nil_r.
  - apply ends_halt, halt_wait. destruct p as [|tag t|tag n]; [congruence| |].
    + destruct t; cbn [need] in Hk; cbn [waiting]; rewrite ?zeros_length; try lia; try (elim (proj2 Hi); reflexivity);
        (assert (k = 0%nat) as -> by lia); cbn [zeros repeat].
      * constructor.
      * split; [constructor|intros _; lia].
    + cbn [need] in Hk. cbn [waiting]. rewrite zeros_length. lia.
Qed.

Lemma zeros_enough m p dst : idle p -> p <> Start ->
  panswer (pdecode m (decoder_of p) (zeros (need p)) dst) = ([], dst ++ [gives p], Ok (N.of_nat (need p))).
Proof.
  intros Hi Hs.
  assert (W : forall f, item m p (zeros (need p)) Start [f] -> f = gives p ->
    panswer (pdecode m (decoder_of p) (zeros (need p)) dst) = ([], dst ++ [gives p], Ok (N.of_nat (need p)))).
  { intros f Hf ->.
    assert (Hn : zeros (need p) <> []) by (pose proof (need_pos p Hi Hs); destruct (need p); [lia|discriminate]).
    pose proof (pdecode_run m p _ Start _ [] Start [] (Ok tt) dst (items_one m true p _ Start _ Hf (fun _ => Hn))
      (ends_halt m Start [] (Ok tt) (start_waits m))) as H.
    rewrite app_nil_r in H. rewrite H. cbn [panswer with_count app]. now rewrite zeros_length. }
  destruct p as [|tag t|tag n]; [congruence| |].
  - destruct t; try (elim (proj2 Hi); reflexivity).
    + eapply W; [constructor; exists 0; constructor; lia|reflexivity].
    + eapply W; [constructor; reflexivity|reflexivity].
    + assert (R : reads m [0] 0) by (split; [exists 0; constructor; lia|split; [reflexivity|intros _; cbn; lia]]).
      pose proof (pdecode_run m (GotKey tag LengthDelimited) [0] (GotLen tag 0) [] [] Start [(tag, LengthDelimited, [])] (Ok tt) dst
        (items_one m true _ _ _ _ (item_len m tag [0] 0 R) (fun _ => ltac:(discriminate))) (ends_empty m tag [])) as H.
      cbn [app] in H. cbn [need gives zeros repeat]. rewrite H. reflexivity.
    + eapply W; [constructor; reflexivity|reflexivity].
  - eapply W; [constructor; cbn [need]; rewrite zeros_length; lia|reflexivity].
Qed.

Lemma gives_inj p q : idle p -> idle q -> p <> Start -> q <> Start -> need p = need q -> gives p = gives q -> p = q.
Proof.
  destruct p as [|tag t|tag n], q as [|tag' t'|tag' n']; cbn [idle]; intros Hp Hq Sp Sq Hn Hg; try congruence.
  - destruct t, t'; cbn in Hg; try congruence; try (destruct Hp; congruence).
  - destruct t; cbn in Hg, Hn; try congruence. injection Hg as -> Hz. rewrite <- Hn in Hz. discriminate.
  - destruct t'; cbn in Hg, Hn; try congruence. injection Hg as -> Hz. rewrite Hn in Hz. discriminate.
  - cbn in Hg, Hn. injection Hg as -> _. f_equal. lia.
Qed.

Lemma item_more m p b p1 h : item m p b p1 h -> h = [] \/ p1 = Start.
Proof. destruct 1; auto. Qed.

(* The state reached depends only on what followed the last field delivered. *)
Lemma items_recent m ne p a p1 hs : items m ne p a p1 hs ->
  hs = [] \/ exists a1 a2, a = a1 ++ a2 /\ items m ne p a1 Start hs /\ items m ne Start a2 p1 [].
Proof.
  induction 1 as [p|p bs p1 h bs' p2 hs Hi Hne H IH]; [now left|].
  destruct IH as [->|(a1 & a2 & -> & H1 & H2)].
  - destruct (item_more _ _ _ _ _ Hi) as [->|E]; [now left|right]. subst p1. rewrite app_nil_r.
    exists bs, bs'. refine (conj eq_refl (conj (items_one m ne p bs Start h Hi Hne) H)).
  - right. exists (bs ++ a1), a2. refine (conj (app_assoc _ _ _) (conj _ H2)). econstructor; eauto.
Qed.

Lemma waits_empty m p : idle p -> halt m p [] (Ok tt).
Proof.
  intros Hi. apply halt_wait. destruct p as [|tag []|tag n]; cbn in *; try (split; [constructor|intros _; lia]); try constructor; lia || tauto || idtac.
Qed.

(* ------------------------------------------------------------------ *)
(* C104: between calls a decoder is at the start of a field, or has a field number and
   wire type, or these and a length: whatever it was given before, and whatever the calls
   returned. *)
Theorem C104_states : forall m bufs, Forall bytes bufs -> exists p, idle p /\ after_calls m bufs = decoder_of p.
Proof.
  intros m bufs. unfold after_calls. change pdecoder_default with (decoder_of Start). assert (Hi : idle Start) by exact I.
  revert Hi. generalize Start as p. induction bufs as [|b bufs IH]; intros p Hi Hb; [exists p; auto|].
  inversion Hb as [|? ? Hb1 Hb2]; subst. cbn [fold_left].
  destruct (pdecode_total m p b [] Hb1 (idle_sane p Hi)) as (a & p1 & hs & rest & p2 & hs2 & o & _ & Ha & Hc & ->).
  cbn [fst]. apply IH; [|exact Hb2]. exact (call_ends_idle m p1 rest p2 hs2 o Hc (items_sane m true p a p1 hs Ha (idle_sane p Hi))).
Qed.
Print Assumptions C104_states.

(* Every such state is reached, by its key (and length). *)
Theorem C104_reached : forall p, idle p -> exists b, bytes b /\
  forall m dst, pdecode m pdecoder_default b dst = ((decoder_of p, [], dst), Ok (N.of_nat (length b))).
Proof.
  intros p Hi.
  assert (K : exists b, bytes b /\ forall m, items m true Start b p []).
  { assert (G : forall tag t, 1 <= tag < 2 ^ 29 -> t <> Unknown ->
      exists b, bytes b /\ b <> [] /\ forall m, item m Start b (GotKey tag t) []).
    { intros tag t Ht Hu.
      assert (exists n, wire_number t n /\ n < 8) as (n & Hn & Hn8).
      { destruct t; [exists 0|exists 1|exists 2|exists 5|congruence]; split; cbn; auto; lia. }
      assert (V : 8 * tag + n < 2 ^ 64) by (change (2 ^ 29) with 536870912 in Ht; change (2 ^ 64) with 18446744073709551616; lia).
      destruct (shortest64 _ V) as (b & Hs & _). exists b. split; [exact (shortest_bytes _ _ Hs)|].
      split; [exact (shortest_ne _ _ Hs)|]. intros m. apply item_key with n; auto. now apply reads_shortest. }
    destruct p as [|tag t|tag n]; cbn [idle] in Hi.
    - exists []. split; [constructor|]. intros m. constructor.
    - destruct (G tag t) as (b & Hb & Hn & Hk); try tauto. exists b. split; [exact Hb|]. intros m. apply items_one; auto.
    - destruct (G tag LengthDelimited) as (b & Hb & Hn & Hk); [tauto|discriminate|].
      destruct (shortest64 n) as (l & Hl & _); [tauto|]. exists (b ++ l).
      split; [apply bytes_app; split; [exact Hb|exact (shortest_bytes _ _ Hl)]|]. intros m.
      change (@nil pfield) with (@nil pfield ++ []). apply items_app with (GotKey tag LengthDelimited); apply items_one; auto.
      + constructor. apply reads_shortest; tauto.
      + intros _. exact (shortest_ne _ _ Hl). }
  destruct K as (b & Hb & K). exists b. split; [exact Hb|]. intros m dst.
  pose proof (pdecode_run m Start b p [] [] p [] (Ok tt) dst (K m) (ends_halt m p [] (Ok tt) (waits_empty m p Hi))) as H.
  rewrite !app_nil_r in H. exact H.
Qed.
Print Assumptions C104_reached.

(* Decoders in different states are told apart by some buffer (so none of the three is
   forgotten either). *)
Theorem C104_told_apart : forall m p1 p2, idle p1 -> idle p2 ->
  ((forall b dst, bytes b -> panswer (pdecode m (decoder_of p1) b dst) = panswer (pdecode m (decoder_of p2) b dst)) <-> p1 = p2).
Proof.
  intros m p1 p2 H1 H2. split; [|now intros ->]. intros A.
  assert (S0 : forall p, idle p -> p <> Start -> snd (panswer (pdecode m (decoder_of p) (zeros 1) [])) <> Err PInvalidInput).
  { intros p Hi Hs. pose proof (need_pos p Hi Hs) as N1. destruct (Nat.eq_dec (need p) 1) as [E|E].
    - rewrite <- E, zeros_enough by auto. discriminate.
    - rewrite zeros_few by (auto; lia). discriminate. }
  assert (SS : snd (panswer (pdecode m (decoder_of Start) (zeros 1) [])) = Err PInvalidInput).
  { cbn [decoder_of zeros repeat]. now rewrite zero_key. }
  pose proof (A (zeros 1) [] (zeros_bytes 1)) as A1.
  assert (D : forall p, {p = Start} + {p <> Start}) by (intros []; [left|right|right]; congruence).
  destruct (D p1) as [->|Hs1], (D p2) as [->|Hs2]; [reflexivity| | |].
  - elim (S0 p2 H2 Hs2). rewrite <- A1. exact SS.
  - elim (S0 p1 H1 Hs1). rewrite A1. exact SS.
  - destruct (Nat.lt_trichotomy (need p1) (need p2)) as [L|[L|L]].
    + pose proof (A (zeros (need p1)) [] (zeros_bytes _)) as E. rewrite zeros_enough, zeros_few in E by auto. discriminate.
    + pose proof (A (zeros (need p1)) [] (zeros_bytes _)) as E. rewrite zeros_enough in E by auto. rewrite L, zeros_enough in E by auto.
      apply gives_inj; auto. injection E. auto.
    + pose proof (A (zeros (need p2)) [] (zeros_bytes _)) as E. rewrite (zeros_enough m p2), zeros_few in E by auto. discriminate.
Qed.
Print Assumptions C104_told_apart.

(* Fields that were delivered leave no trace: a decoder that has delivered one is as a new
   decoder that was given only the octets after the last field delivered. *)
Theorem C104_no_trace : forall m p b dst d rest hs n, bytes b -> idle p -> hs <> [] ->
  pdecode m (decoder_of p) b dst = ((d, rest, dst ++ hs), Ok n) ->
  exists a1 a2, b = a1 ++ a2 ++ rest /\
    forall dst', pdecode m pdecoder_default a2 dst' = ((d, [], dst'), Ok (N.of_nat (length a2))).
Proof.
  intros m p b dst d rest hs n Hb Hi Hh E.
  destruct (pdecode_total m p b dst Hb (idle_sane p Hi)) as (a & p1 & h1 & r & p2 & h2 & o & -> & Ha & Hc & E2).
  rewrite E in E2. injection E2 as -> <- Eh Eo. apply app_inv_head in Eh. subst hs.
  pose proof (call_ends_idle m p1 rest p2 h2 o Hc (items_sane m true p a p1 h1 Ha (idle_sane p Hi))) as Hi2.
  assert (K : exists a1 a2, a = a1 ++ a2 /\ items m true Start a2 p2 []).
  { destruct Hc as [p1 rest o Ho|tag rest].
    - rewrite app_nil_r in Hh. destruct (items_recent _ _ _ _ _ _ Ha) as [->|(a1 & a2 & -> & _ & H2)]; [congruence|eauto].
    - exists a, []. split; [now rewrite app_nil_r|constructor]. }
  destruct K as (a1 & a2 & -> & K). exists a1, a2. split; [now rewrite app_assoc|]. intros dst'.
  pose proof (pdecode_run m Start a2 p2 [] [] p2 [] (Ok tt) dst' K (ends_halt m p2 [] (Ok tt) (waits_empty m p2 Hi2))) as H.
  rewrite !app_nil_r in H. exact H.
Qed.
Print Assumptions C104_no_trace.

(* Two fields and a half, then a bad key, then the key and the length of another. *)
Example C104_case : forall m,
  after_calls m [[8; 1; 21; 1; 2; 3; 4; 9]; repeat 0 9; [26; 200; 1]] = decoder_of (GotLen 3 200) /\
  after_calls m [[8; 1; 21; 1; 2; 3; 4; 9]] = decoder_of (GotKey 1 Bit64) /\
  idle (GotLen 3 200) /\ idle (GotKey 1 Bit64) /\
  pdecode m pdecoder_default [8; 1; 21; 1; 2; 3; 4; 9] [] =
    ((decoder_of (GotKey 1 Bit64), [], [(1, Varint, [1]); (2, Bit32, [1; 2; 3; 4])]), Ok 8) /\
  panswer (pdecode m (decoder_of (GotLen 3 200)) [0] []) = ([0], [], Ok 0) /\
  panswer (pdecode m (decoder_of (GotLen 3 1)) [0] []) = ([], [(3, LengthDelimited, [0])], Ok 1).
Proof.
  intros m. refine (conj _ (conj _ (conj _ (conj _ _)))); [destruct m; vm_compute; reflexivity|destruct m; vm_compute; reflexivity| | |].
  - split; split; reflexivity || discriminate.
  - split; [split; reflexivity || discriminate|discriminate].
  - destruct m; vm_compute; repeat split; reflexivity.
Qed.
