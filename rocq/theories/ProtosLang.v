(* Which octets are a protobuf message, and in how many ways (C117). *)
From Verif Require Import Base Leb ProtosModel ProtosSpec ProtosApi ProtosNum ProtosDec ProtosConv ProtosDerived ProtosMore.
Open Scope list_scope.
Open Scope N_scope.

(* ------------------------------------------------------------------ *)
(* Specification vocabulary. *)

(* A caller that repeats Decoder::decode until it returns 0 gets these fields, with nothing
   left over, nothing pending and no error. *)
Definition message (m : mode) (bs : list N) (fs : list pfield) : Prop :=
  decode_fully m pdecoder_default bs [] = ((pdecoder_default, [], fs), Ok tt).

(* A payload that can take the place of p in a field of wire type t, leaving key and length
   as they are: any varint for a varint, else any octets of the same number. *)
Definition replaces (t : typ) (p q : list N) : Prop :=
  match t with Varint => varint_shape q | _ => length q = length p end.

(* ------------------------------------------------------------------ *)
Lemma key_items m tag t key : key_read m tag t key -> items m false Start key (GotKey tag t) [].
Proof. intros (n & Hr & Hn & Ht). apply items_one; [now apply item_key with n|discriminate]. Qed.

Lemma field_read_items m f bs : field_read m f bs -> items m false Start bs Start [f].
Proof.
  destruct f as [[tag t] p]. intros (key & Hk & Hm). pose proof (key_items m tag t key Hk) as Hi.
  change [(tag, t, p)] with ([] ++ [(tag, t, p)]). destruct t; try contradiction.
  - destruct Hm as [Hv ->]. apply items_app with (GotKey tag Varint); [exact Hi|]. apply items_one; [now constructor|discriminate].
  - destruct Hm as [Hv ->]. apply items_app with (GotKey tag Bit64); [exact Hi|]. apply items_one; [now constructor|discriminate].
  - destruct Hm as (len & Hl & ->). apply items_app with (GotKey tag LengthDelimited); [exact Hi|].
    change [(tag, LengthDelimited, p)] with ([] ++ [(tag, LengthDelimited, p)]).
    apply items_app with (GotLen tag (N.of_nat (length p))); (apply items_one; [now constructor|discriminate]).
  - destruct Hm as [Hv ->]. apply items_app with (GotKey tag Bit32); [exact Hi|]. apply items_one; [now constructor|discriminate].
Qed.
Lemma fields_read_items m fs parts : Forall2 (field_read m) fs parts -> items m false Start (concat parts) Start fs.
Proof.
  induction 1 as [|f bs fs parts H _ IH]; [constructor|]. cbn [concat]. change (f :: fs) with ([f] ++ fs).
  apply items_app with Start; [now apply field_read_items|exact IH].
Qed.

Theorem message_iff m bs fs : bytes bs ->
  (message m bs fs <-> exists parts, Forall2 (field_read m) fs parts /\ bs = concat parts).
Proof.
  intros Hb. split.
  - intros H. destruct (decode_fully_total m Start bs [] Hb Logic.I) as (a & p1 & hs & rest & o & Ea & Hi & _ & Hp1 & E).
    change (decoder_of Start) with pdecoder_default in E. unfold message in H. rewrite H in E. cbn [app] in E. injection E as E1 <- <- _.
    rewrite app_nil_r in Ea. subst a.
    assert (p1 = Start) as ->.
    { destruct p1 as [|tag t|tag len]; [reflexivity| |]; cbn in E1; [|discriminate].
      injection E1 as <- <-. destruct Hp1 as [Hp1 _]. lia. }
    destruct (items_fields m false Start bs Start fs Hi [] eq_refl) as (parts & tail & H1 & H2 & H3).
    cbn in H2. subst tail. rewrite app_nil_r in H3. exists parts. auto.
  - intros (parts & H & ->). unfold message. pose proof (decode_fully_run m Start (concat parts) Start fs [] (Ok tt) [] Logic.I (fields_read_items m fs parts H)) as R.
    rewrite app_nil_r in R. apply R. constructor. cbn [waiting]. split; [constructor|intros _; cbn; lia].
Qed.

(* ------------------------------------------------------------------ *)
(* One way only. *)
Lemma reads_apart m m' a v b w x y : reads m a v -> reads m' b w -> a ++ x = b ++ y -> a = b /\ v = w /\ x = y.
Proof.
  intros ((u & Ha) & -> & _) ((u' & Hb) & -> & _) E. destruct (leb_prefix_free _ _ _ _ _ _ Ha Hb E) as (-> & _ & ->). auto.
Qed.
Lemma app_same_length {A} (a b x y : list A) : length a = length b -> a ++ x = b ++ y -> a = b /\ x = y.
Proof.
  revert b. induction a as [|c a IH]; intros [|d b] L E; cbn in *; try discriminate; [now split|].
  injection E as -> E. injection L as L. destruct (IH b L E) as [-> ->]. now split.
Qed.
Lemma wire_number_inj t t' n : wire_number t n -> wire_number t' n -> t = t'.
Proof. destruct t, t'; cbn; intros; subst; try reflexivity; try discriminate; contradiction. Qed.
Lemma wire_number_small t n : wire_number t n -> n < 8.
Proof. destruct t; cbn; intros; subst; try lia; contradiction. Qed.

Theorem field_apart m m' f g a b x y : field_read m f a -> field_read m' g b -> a ++ x = b ++ y -> f = g /\ a = b /\ x = y.
Proof.
  destruct f as [[tag t] p], g as [[tag' t'] p'].
  intros (key & (n & Hr & Hn & _) & Hm) (key' & (n' & Hr' & Hn' & _) & Hm') E.
  assert (K : forall r r', key ++ r = key' ++ r' -> key = key' /\ tag = tag' /\ t = t' /\ r = r').
  { intros r r' Er. destruct (reads_apart m m' _ _ _ _ _ _ Hr Hr' Er) as (-> & Ev & ->).
    pose proof (wire_number_small _ _ Hn). pose proof (wire_number_small _ _ Hn').
    assert (tag = tag') as -> by lia. assert (n = n') as -> by lia. pose proof (wire_number_inj _ _ _ Hn Hn') as ->. auto. }
  assert (Ha : exists r, a = key ++ r) by (destruct t; try contradiction; [destruct Hm as [_ ->]| destruct Hm as [_ ->]|destruct Hm as (len & _ & ->)|destruct Hm as [_ ->]]; eauto).
  assert (Hb : exists r, b = key' ++ r) by (destruct t'; try contradiction; [destruct Hm' as [_ ->]| destruct Hm' as [_ ->]|destruct Hm' as (len & _ & ->)|destruct Hm' as [_ ->]]; eauto).
  destruct Ha as [r ->], Hb as [r' ->]. rewrite <- !app_assoc in E. destruct (K _ _ E) as (-> & -> & -> & E2). clear K E.
  destruct t'; try contradiction.
  - destruct Hm as [[v Hv] Er], Hm' as [[v' Hv'] Er']. apply app_inv_head in Er, Er'. subst r r'.
    destruct (leb_prefix_free _ _ _ _ _ _ Hv Hv' E2) as (-> & _ & ->). auto.
  - destruct Hm as [Hv Er], Hm' as [Hv' Er']. apply app_inv_head in Er, Er'. subst r r'.
    destruct (app_same_length p p' x y) as [-> ->]; [congruence|exact E2|]. auto.
  - destruct Hm as (len & Hl & Er), Hm' as (len' & Hl' & Er'). apply app_inv_head in Er, Er'. subst r r'.
    rewrite <- !app_assoc in E2. destruct (reads_apart _ _ _ _ _ _ _ _ Hl Hl' E2) as (-> & Ev & E3).
    apply Nat2N.inj in Ev. destruct (app_same_length p p' x y Ev E3) as [-> ->]. auto.
  - destruct Hm as [Hv Er], Hm' as [Hv' Er']. apply app_inv_head in Er, Er'. subst r r'.
    destruct (app_same_length p p' x y) as [-> ->]; [congruence|exact E2|]. auto.
Qed.

Lemma field_read_nonempty m f a : field_read m f a -> a <> [].
Proof.
  destruct f as [[tag t] p]. intros (key & (n & ((u & Hu) & _) & _) & Hm) ->. pose proof (leb_nonempty _ _ Hu) as Hne.
  destruct t; try contradiction; [destruct Hm as [_ E]|destruct Hm as [_ E]|destruct Hm as (len & _ & E)|destruct Hm as [_ E]];
    destruct key; (now elim Hne) || discriminate E.
Qed.

Theorem fields_apart m m' fs ps gs qs x : Forall2 (field_read m) fs ps -> Forall2 (field_read m') gs qs ->
  concat ps ++ x = concat qs ->
  exists gs2 qs2, gs = fs ++ gs2 /\ qs = ps ++ qs2 /\ x = concat qs2.
Proof.
  intros H. revert gs qs. induction H as [|f p fs ps Hf H IH]; intros gs qs Hg E.
  - exists gs, qs. auto.
  - destruct Hg as [|g q gs qs Hg1 Hg].
    + exfalso. cbn [concat] in E. pose proof (field_read_nonempty _ _ _ Hf). destruct p; [congruence|discriminate E].
    + cbn [concat] in E. rewrite <- app_assoc in E. destruct (field_apart _ _ _ _ _ _ _ _ Hf Hg1 E) as (-> & -> & E2).
      destruct (IH gs qs Hg E2) as (gs2 & qs2 & -> & -> & ->). exists gs2, qs2. auto.
Qed.

(* ------------------------------------------------------------------ *)
(* Messages and their parts. *)
Lemma Forall2_len {A B} (R : A -> B -> Prop) a b : Forall2 R a b -> length a = length b.
Proof. induction 1; cbn; congruence. Qed.

Theorem message_split m a b fs gs : bytes (a ++ b) -> message m a fs -> message m (a ++ b) gs ->
  exists hs, gs = fs ++ hs /\ message m b hs.
Proof.
  intros Hb Ha Hg. apply bytes_app in Hb as Hb'. destruct Hb' as [Ba Bb].
  apply message_iff in Ha as (ps & Hp & Ep); [|exact Ba]. apply message_iff in Hg as (qs & Hq & Eq); [|exact Hb].
  rewrite Ep in Eq. destruct (fields_apart m m fs ps gs qs b Hp Hq Eq) as (hs & qs2 & -> & -> & Eb). exists hs. split; [reflexivity|].
  apply message_iff; [exact Bb|]. exists qs2. split; [|exact Eb].
  apply Forall2_app_inv_l in Hq as (q1 & q2 & H1 & H2 & E). pose proof (Forall2_len _ _ _ Hp) as L1. pose proof (Forall2_len _ _ _ H1) as L2.
  destruct (app_same_length ps q1 qs2 q2) as [-> ->]; [congruence|exact E|]. exact H2.
Qed.
Theorem message_join m a b fs gs : bytes (a ++ b) -> message m a fs -> message m b gs -> message m (a ++ b) (fs ++ gs).
Proof.
  intros Hb Ha Hg. apply bytes_app in Hb as Hb'. destruct Hb' as [Ba Bb].
  apply message_iff in Ha as (ps & Hp & ->); [|exact Ba]. apply message_iff in Hg as (qs & Hq & ->); [|exact Bb].
  apply message_iff; [exact Hb|]. exists (ps ++ qs). split; [now apply Forall2_app|]. now rewrite concat_app.
Qed.

(* Where each field of a message is. *)
Theorem message_at m bs fs f gs : bytes bs -> message m bs (fs ++ f :: gs) ->
  exists a x b, bs = a ++ x ++ b /\ message m a fs /\ field_read m f x /\ message m b gs.
Proof.
  intros Hb H. apply message_iff in H as (ps & Hp & E); [|exact Hb].
  apply Forall2_app_inv_l in Hp as (p1 & p2 & H1 & H2 & ->). inversion H2 as [|? x ? p3 H3 H4]; subst.
  rewrite concat_app in *. cbn [concat] in *. apply bytes_app in Hb as [B1 B2]. apply bytes_app in B2 as [B2 B3].
  exists (concat p1), x, (concat p3). split; [reflexivity|]. split; [|split; [exact H3|]]; (apply message_iff; [assumption|]); eauto.
Qed.

Lemma field_payload m tag t p x : field_read m (tag, t, p) x ->
  exists h, x = h ++ p /\ forall q, replaces t p q -> field_read m (tag, t, q) (h ++ q).
Proof.
  intros (key & Hk & Hm). destruct t; try contradiction.
  - destruct Hm as [Hv ->]. exists key. split; [reflexivity|]. intros q Hq. exists key. auto.
  - destruct Hm as [Hv ->]. exists key. split; [reflexivity|]. intros q Hq. cbn in Hq. exists key. split; [exact Hk|]. split; [congruence|reflexivity].
  - destruct Hm as (len & Hl & ->). exists (key ++ len). split; [now rewrite app_assoc|]. intros q Hq. cbn in Hq. exists key.
    split; [exact Hk|]. exists len. rewrite Hq. split; [exact Hl|]. now rewrite app_assoc.
  - destruct Hm as [Hv ->]. exists key. split; [reflexivity|]. intros q Hq. cbn in Hq. exists key. split; [exact Hk|]. split; [congruence|reflexivity].
Qed.

(* Overwriting a payload in place. *)
Theorem message_patch m bs fs tag t p gs : bytes bs -> message m bs (fs ++ (tag, t, p) :: gs) ->
  exists a b, bs = a ++ p ++ b /\
    forall q, bytes q -> replaces t p q -> message m (a ++ q ++ b) (fs ++ (tag, t, q) :: gs).
Proof.
  intros Hb H. apply message_iff in H as (ps & Hp & E); [|exact Hb].
  apply Forall2_app_inv_l in Hp as (p1 & p2 & H1 & H2 & ->). inversion H2 as [|? x ? p3 H3 H4]; subst.
  destruct (field_payload m tag t p x H3) as (h & -> & Hq).
  rewrite concat_app in *. cbn [concat] in *. exists (concat p1 ++ h), (concat p3). split; [now rewrite <- !app_assoc|].
  intros q Bq Rq. apply bytes_app in Hb as [B1 B2]. apply bytes_app in B2 as [B2 B3]. apply bytes_app in B2 as [B2 _].
  apply message_iff.
  - unfold bytes in *. rewrite !Forall_app. auto.
  - exists (p1 ++ (h ++ q) :: p3). split; [apply Forall2_app; [exact H1|constructor; [now apply Hq|exact H4]]|].
    rewrite concat_app. cbn [concat]. now rewrite <- !app_assoc.
Qed.
