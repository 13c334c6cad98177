(* How many octets a protobuf field or message takes, computed from its values
   (C86).  The vocabulary of the statements comes first. *)
From Verif Require Import Base Leb ProtosModel ProtosSpec ProtosApi ProtosNum ProtosEnc ProtosConv ProtosDec ProtosDerived ProtosMore.
From Verif Require HpackLength.
Open Scope N_scope.

(* A varint: one octet for each seven bits begun. *)
Definition varint_octets (v : N) : N := 1 + N.log2 v / 7.
(* int32 and int64: negative numbers are sign-extended to 64 bits. *)
Definition int_octets (z : Z) : N := if (z <? 0)%Z then 10 else varint_octets (Z.to_N z).
(* sint32 and sint64: 0, -1, 1, -2, ... become 0, 1, 2, 3, ... *)
Definition sint_octets (z : Z) : N := varint_octets (if (z <? 0)%Z then Z.to_N (-2 * z - 1) else Z.to_N (2 * z)).
Definition total {A} (size : A -> N) (vs : list A) : N := fold_right N.add 0 (map size vs).

(* Octets of the value alone. *)
Definition payload_octets (l : encoder_lit) : N :=
  match l with
  | EBytes v => N.of_nat (length v)
  | EBool _ => 1
  | EBoolVec v => N.of_nat (length v)
  | EInt32 v | EInt64 v => int_octets v
  | EInt32Vec v | EInt64Vec v => total int_octets v
  | EUInt32 v | EUInt64 v => varint_octets v
  | EUInt32Vec v | EUInt64Vec v => total varint_octets v
  | ESInt32 v | ESInt64 v => sint_octets v
  | ESInt32Vec v | ESInt64Vec v => total sint_octets v
  | EFixed32 _ | EFloat _ | ESFixed32 _ => 4
  | EFixed64 _ | EDouble _ | ESFixed64 _ => 8
  | EFixed32Vec v | EFloatVec v => 4 * N.of_nat (length v)
  | ESFixed32Vec v => 4 * N.of_nat (length v)
  | EFixed64Vec v | EDoubleVec v => 8 * N.of_nat (length v)
  | ESFixed64Vec v => 8 * N.of_nat (length v)
  end.

(* Bytes and vectors are preceded by their length. *)
Definition delimited (l : encoder_lit) : bool :=
  match l with
  | EBool _ | EInt32 _ | EInt64 _ | EUInt32 _ | EUInt64 _ | ESInt32 _ | ESInt64 _ => false
  | EFloat _ | EDouble _ | EFixed32 _ | EFixed64 _ | ESFixed32 _ | ESFixed64 _ => false
  | _ => true
  end.

(* Key, length, payload. *)
Definition frame_octets (tag : N) (d : bool) (n : N) : N :=
  varint_octets (8 * tag) + (if d then varint_octets n else 0) + n.
Definition field_octets (f : N * encoder_lit) : N :=
  frame_octets (fst f) (delimited (snd f)) (payload_octets (snd f)).
Definition message_octets (fs : list (N * encoder_lit)) : N := total field_octets fs.

(* Messages in messages. *)
Definition tree_delimited (t : tree) : bool := match t with Leaf l => delimited l | Node _ => true end.
Fixpoint tree_octets (t : tree) : N :=
  match t with
  | Leaf l => payload_octets l
  | Node fs => total (fun f => frame_octets (fst f) (tree_delimited (snd f)) (tree_octets (snd f))) fs
  end.

(* ------------------------------------------------------------------ *)
Lemma shortest_octets v bs : shortest v bs -> N.of_nat (length bs) = varint_octets v.
Proof.
  intros H. pose proof (shortest_groups v bs H) as [_ Hd]. destruct H as [Hl _].
  exact (HpackLength.leb_octets bs v Hl Hd).
Qed.

Lemma log2_key k n : 1 <= k -> n < 8 -> N.log2 (8 * k + n) = N.log2 (8 * k).
Proof.
  intros Hk Hn. destruct (N.log2_spec k ltac:(lia)) as [L U].
  set (e := N.log2 k) in *.
  assert (E8 : N.log2 (8 * k) = 3 + e).
  { apply N.log2_unique; [lia|]. rewrite <- (N.add_succ_r 3 e). rewrite !N.pow_add_r. change (2 ^ 3) with 8. lia. }
  rewrite E8. apply N.log2_unique; [lia|]. rewrite <- (N.add_succ_r 3 e). rewrite !N.pow_add_r. change (2 ^ 3) with 8. lia.
Qed.

Lemma key_octets tag n key : 1 <= tag -> n < 8 -> shortest (8 * tag + n) key -> N.of_nat (length key) = varint_octets (8 * tag).
Proof. intros Ht Hn H. rewrite (shortest_octets _ _ H). unfold varint_octets. now rewrite log2_key. Qed.

Lemma int_wire_octets z bs : in_i 64 z -> w_int z bs -> N.of_nat (length bs) = int_octets z.
Proof.
  intros Hz (n & (Hn & k & E) & H). rewrite (shortest_octets _ _ H). unfold int_octets, in_i in *.
  change (2 ^ (Z.of_N 64 - 1))%Z with 9223372036854775808%Z in Hz. change (2 ^ Z.of_N 64)%Z with 18446744073709551616%Z in E.
  change (2 ^ 64) with 18446744073709551616 in Hn.
  destruct (Z.ltb_spec z 0).
  - assert (k = -1)%Z by lia. subst k. unfold varint_octets.
    assert (N.log2 n = 63) as ->; [|reflexivity]. apply N.log2_unique; [lia|].
    change (2 ^ 63) with 9223372036854775808. change (2 ^ N.succ 63) with 18446744073709551616. lia.
  - assert (k = 0)%Z by lia. subst k. f_equal. lia.
Qed.

Lemma packed_octets {A} (W : A -> list N -> Prop) (size : A -> N) vs p :
  (forall v bs, In v vs -> W v bs -> N.of_nat (length bs) = size v) -> packed W vs p -> N.of_nat (length p) = total size vs.
Proof.
  intros HW (parts & H & ->). unfold total. induction H as [|v bs vs parts Hv H IH]; [reflexivity|].
  cbn [concat map fold_right]. rewrite app_length, Nat2N.inj_add, IH by (intros; apply HW; [now right|assumption]).
  f_equal. apply HW; [now left|exact Hv].
Qed.
Lemma total_const {A} c (vs : list A) : total (fun _ => c) vs = c * N.of_nat (length vs).
Proof. unfold total. induction vs as [|v vs IH]; cbn [map fold_right length]; [lia|]. rewrite IH. lia. Qed.

Lemma in_i_64 z : in_i 32 z -> in_i 64 z.
Proof.
  unfold in_i. change (2 ^ (Z.of_N 64 - 1))%Z with 9223372036854775808%Z. change (2 ^ (Z.of_N 32 - 1))%Z with 2147483648%Z. lia.
Qed.

Lemma bool_octets v bs : w_bool v bs -> N.of_nat (length bs) = 1.
Proof. intros H. rewrite (shortest_octets _ _ H). now destruct v. Qed.

(* The payload. *)
Theorem payload_size l t p : lit_ok l -> lit_wire l t p ->
  N.of_nat (length p) = payload_octets l /\ (t = LengthDelimited <-> delimited l = true).
Proof.
  intros Hl Hw.
  destruct l; cbn [lit_ok lit_wire payload_octets delimited] in *; destruct Hw as [-> Hw];
    (refine (conj _ _); [|split; congruence]);
    try (rewrite Forall_forall in Hl);
    try (subst; reflexivity);
    try exact (shortest_octets _ _ Hw);
    try (destruct Hw as [-> _]; reflexivity);
    try (destruct Hw as (n & _ & (-> & _)); reflexivity);
    try exact (bool_octets _ _ Hw);
    try (apply int_wire_octets; auto using in_i_64; fail);
    try (eapply packed_octets; [|exact Hw]; intros x bs Hin H;
         first [exact (shortest_octets _ _ H) | apply int_wire_octets; auto using in_i_64]; fail);
    try (rewrite <- total_const; eapply packed_octets; [|exact Hw]; intros x bs Hin H;
         first [destruct H as [-> _]; reflexivity | destruct H as (n & _ & (-> & _)); reflexivity]; fail).
  rewrite <- (N.mul_1_l (N.of_nat (length v))), <- total_const. eapply packed_octets; [|exact Hw].
  intros x bs _ H. exact (bool_octets _ _ H).
Qed.

Corollary small_payload l : lit_ok l -> (small_lit l <-> payload_octets l < 2 ^ 64).
Proof.
  intros Hl. split.
  - intros H. destruct (lit_wire_exists l Hl) as (t & p & Hw). rewrite <- (proj1 (payload_size l t p Hl Hw)). exact (H t p Hw).
  - intros H t p Hw. now rewrite (proj1 (payload_size l t p Hl Hw)).
Qed.

Lemma part_size f w part : good_field f -> carries f w -> field_wire w part -> N.of_nat (length part) = field_octets f.
Proof.
  destruct f as [tag l], w as [[tag' t] p]. intros (Ht & Hl & _) [E Hw] (n & key & Hn & Hk & Hb). cbn [fst snd] in *. subst tag'.
  destruct (payload_size l t p Hl Hw) as [Hp Hd].
  assert (n < 8) by (destruct t; cbn [wire_number] in Hn; try contradiction; lia).
  pose proof (key_octets tag n key (proj1 Ht) H Hk) as Lk.
  unfold field_octets, frame_octets. cbn [fst snd]. rewrite <- Lk, <- Hp.
  destruct (delimited l).
  - rewrite (proj2 Hd eq_refl) in *. destruct Hb as (len & Hlen & ->). rewrite <- (shortest_octets _ _ Hlen), !app_length. lia.
  - assert (t <> LengthDelimited) by (intros C; now apply Hd in C).
    destruct t; try congruence; subst part; rewrite app_length; lia.
Qed.

Lemma parts_size fs ws parts : Forall good_field fs -> Forall2 carries fs ws -> Forall2 field_wire ws parts ->
  N.of_nat (length (concat parts)) = message_octets fs.
Proof.
  intros Hg Hc. revert parts. induction Hc as [|f w fs ws H Hc IH]; intros parts Hf; inversion Hf; subst; [reflexivity|].
  inversion Hg; subst. cbn [concat]. rewrite app_length, Nat2N.inj_add, IH by assumption.
  unfold message_octets, total. cbn [map fold_right]. f_equal. eapply part_size; eauto.
Qed.

(* One call. *)
Theorem field_size tag l : 1 <= tag < 2 ^ 29 -> lit_ok l -> payload_octets l < 2 ^ 64 ->
  exists bs, N.of_nat (length bs) = field_octets (tag, l) /\
    forall dst, pencode tag l (vec_sink dst) = (vec_sink (dst ++ bs), Ok (field_octets (tag, l))).
Proof.
  intros Ht Hl Hs. apply small_payload in Hs; [|exact Hl].
  destruct (lit_wire_exists l Hl) as (t & p & Hw). destruct (lit_wire_typ l t p Hw) as (n & Hn).
  destruct (field_wire_exists tag t p n Ht Hn (Hs t p Hw)) as (bs & Hb).
  assert (L : N.of_nat (length bs) = field_octets (tag, l)).
  { apply (part_size (tag, l) (tag, t, p) bs); [split; auto | split; [reflexivity|exact Hw] | exact Hb]. }
  exists bs. split; [exact L|]. intros dst.
  rewrite (pencode_spec tag l t p bs (vec_sink dst) Ht Hl Hw (Hs t p Hw) Hb), delivered_vec. now rewrite L.
Qed.

(* A sequence of calls, on a Vec and on a writer with room for r octets. *)
Definition sizable (f : N * encoder_lit) : Prop := 1 <= fst f < 2 ^ 29 /\ lit_ok (snd f) /\ payload_octets (snd f) < 2 ^ 64.
Lemma sizable_good f : sizable f <-> good_field f.
Proof.
  split; intros (Ht & Hl & Hs); (refine (conj Ht (conj Hl _))); now apply small_payload.
Qed.

Theorem message_size fs : Forall sizable fs ->
  exists bs, N.of_nat (length bs) = message_octets fs /\
    (forall dst, encode_message fs (vec_sink dst) = (vec_sink (dst ++ bs), Ok (message_octets fs))) /\
    forall done r, encode_message fs (mkSink done (Some r)) =
      if message_octets fs <=? r then (mkSink (done ++ bs) (Some (r - message_octets fs)), Ok (message_octets fs))
      else (mkSink (done ++ firstn (N.to_nat r) bs) (Some 0), Err PInterrupted).
Proof.
  intros Hs. assert (Hg : Forall good_field fs) by (eapply Forall_impl; [|exact Hs]; intros f; apply sizable_good).
  destruct (fields_exist fs Hg) as (ws & parts & Hc & Hf). pose proof (parts_size fs ws parts Hg Hc Hf) as L.
  exists (concat parts). split; [exact L|]. split.
  - intros dst. rewrite (encode_message_spec fs ws parts Hg Hc Hf), delivered_vec. now rewrite L.
  - intros done r. rewrite (encode_message_spec fs ws parts Hg Hc Hf). unfold delivered. cbn [room written]. now rewrite L.
Qed.

(* Inner messages. *)
Lemma as_lit_delimited t : delimited (as_lit t) = tree_delimited t.
Proof. now destruct t. Qed.

Theorem tree_size t : tree_ok t -> payload_octets (as_lit t) = tree_octets t.
Proof.
  induction t as [l|fs IH] using tree_ind'; intros H; [reflexivity|]. inversion H as [|? H1 H2]; subst.
  cbn [as_lit payload_octets tree_octets].
  pose proof (tree_fields_good fs H1) as Hg.
  assert (Hs : Forall sizable (map (fun f => (fst f, as_lit (snd f))) fs)).
  { eapply Forall_impl; [|exact Hg]. intros f. apply sizable_good. }
  destruct (message_size _ Hs) as (bs & L & He & _). rewrite (He []). cbn [fst written vec_sink app]. rewrite L.
  unfold message_octets, total. rewrite map_map. f_equal. clear Hg Hs bs L He H H2.
  induction fs as [|f fs IHfs]; [reflexivity|]. inversion IH; subst. inversion H1 as [|? ? [? ?] ?]; subst.
  cbn [map]. f_equal; [|now apply IHfs]. unfold field_octets. cbn [fst snd]. rewrite as_lit_delimited. f_equal. auto.
Qed.

(* Bounds. *)
Lemma varint_octets_64 v : v < 2 ^ 64 -> 1 <= varint_octets v <= 10.
Proof.
  intros H. unfold varint_octets. assert (N.log2 v / 7 <= 63 / 7).
  { apply N.div_le_mono; [lia|]. transitivity (N.log2 (2 ^ 64 - 1)); [|vm_compute; discriminate].
    apply N.log2_le_mono. change (2 ^ 64 - 1) with 18446744073709551615. change (2 ^ 64) with 18446744073709551616 in H. lia. }
  change (63 / 7) with 9 in *. lia.
Qed.
Lemma key_octets_bound tag : 1 <= tag < 2 ^ 29 -> 1 <= varint_octets (8 * tag) <= 5.
Proof.
  intros H. unfold varint_octets. assert (N.log2 (8 * tag) / 7 <= 31 / 7).
  { apply N.div_le_mono; [lia|]. transitivity (N.log2 (2 ^ 32 - 1)); [|vm_compute; discriminate].
    apply N.log2_le_mono. change (2 ^ 32 - 1) with 4294967295. change (2 ^ 29) with 536870912 in H. lia. }
  change (31 / 7) with 4 in *. lia.
Qed.
Lemma zigzag_64 z : in_i 64 z -> (if (z <? 0)%Z then Z.to_N (-2 * z - 1) else Z.to_N (2 * z)) < 2 ^ 64.
Proof.
  unfold in_i. change (2 ^ (Z.of_N 64 - 1))%Z with 9223372036854775808%Z. change (2 ^ 64) with 18446744073709551616.
  intros H. destruct (Z.ltb_spec z 0); lia.
Qed.
Lemma int_octets_bound z : in_i 64 z -> 1 <= int_octets z <= 10.
Proof.
  intros H. unfold int_octets. destruct (Z.ltb_spec z 0); [lia|]. apply varint_octets_64. unfold in_i in H.
  change (2 ^ (Z.of_N 64 - 1))%Z with 9223372036854775808%Z in H. change (2 ^ 64) with 18446744073709551616. lia.
Qed.
Theorem scalar_bound tag l : 1 <= tag < 2 ^ 29 -> lit_ok l -> delimited l = false -> 2 <= field_octets (tag, l) <= 15.
Proof.
  intros Ht Hl Hd. pose proof (key_octets_bound tag Ht). unfold field_octets, frame_octets. cbn [fst snd]. rewrite Hd.
  assert (1 <= payload_octets l <= 10); [|lia].
  assert (U : forall v, u32_ok v -> v < 2 ^ 64).
  { unfold u32_ok. intros v. change (2 ^ 32) with 4294967296. change (2 ^ 64) with 18446744073709551616. lia. }
  destruct l; cbn [delimited] in Hd; try discriminate Hd; cbn [lit_ok payload_octets] in *; try lia;
    try (apply int_octets_bound; auto using in_i_64; fail);
    try (apply varint_octets_64; auto; fail);
    (unfold sint_octets; apply varint_octets_64, zigzag_64; auto using in_i_64).
Qed.
Theorem delimited_bound tag l : 1 <= tag < 2 ^ 29 -> payload_octets l < 2 ^ 64 -> delimited l = true ->
  payload_octets l + 2 <= field_octets (tag, l) <= payload_octets l + 15.
Proof.
  intros Ht Hs Hd. pose proof (key_octets_bound tag Ht). pose proof (varint_octets_64 _ Hs).
  unfold field_octets, frame_octets. cbn [fst snd]. rewrite Hd. lia.
Qed.
