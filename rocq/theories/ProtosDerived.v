(* Messages and streams. *)
From Verif Require Import Base Leb ProtosModel ProtosSpec ProtosApi ProtosNum ProtosEnc ProtosConv ProtosDec.
Open Scope N_scope.

Lemma lit_wire_payload l t p : lit_ok l -> lit_wire l t p -> N.of_nat (length p) < 2 ^ 64 -> payload_ok t p.
Proof.
  intros Hl Hw Hp.
  destruct l; cbn [lit_wire lit_ok] in *; destruct Hw as [-> Hw]; cbn [payload_ok]; auto.
  - destruct Hw as [Hw _]. now exists (if v then 1 else 0).
  - destruct Hw as (n & _ & Hw & _). now exists n.
  - destruct Hw as (n & _ & Hw & _). now exists n.
  - destruct Hw as [Hw _]. now exists v.
  - destruct Hw as [Hw _]. now exists v.
  - apply Hw.
  - apply Hw.
  - destruct Hw as [Hw _]. now exists (zigzag v).
  - destruct Hw as [Hw _]. now exists (zigzag v).
  - apply Hw.
  - apply Hw.
  - destruct Hw as (n & _ & Hw). apply Hw.
  - destruct Hw as (n & _ & Hw). apply Hw.
Qed.

Lemma packed_nonempty {A} (W : A -> list N -> Prop) vs p :
  (forall v bs, W v bs -> bs <> []) -> packed W vs p -> vs <> [] -> p <> [].
Proof.
  intros HW (parts & H & ->) Hne. destruct H as [|v bs vs parts Hv H]; [congruence|].
  apply HW in Hv. cbn [concat]. destruct bs; [congruence|discriminate].
Qed.

Lemma shortest_ne v bs : shortest v bs -> bs <> [].
Proof. intros [H _]. eapply leb_nonempty; eauto. Qed.
Lemma little_ne k v bs : k <> O -> little k v bs -> bs <> [].
Proof. intros Hk (Hl & _) ->. simpl in Hl. congruence. Qed.

Lemma lit_wire_nonempty l t p : lit_wire l t p -> nonempty_lit l -> p <> [].
Proof.
  intros Hw Hn. destruct l; cbn [lit_wire nonempty_lit] in *; destruct Hw as [-> Hw]; try congruence;
    try (eapply shortest_ne; exact Hw);
    try (eapply little_ne; [|exact Hw]; discriminate);
    try (destruct Hw as (n & _ & Hw); eapply shortest_ne; exact Hw);
    try (destruct Hw as (n & _ & Hw); eapply little_ne; [|exact Hw]; discriminate);
    (eapply packed_nonempty; [|exact Hw|exact Hn]); intros x bs Hx.
  - eapply shortest_ne; exact Hx.
  - destruct Hx as (n & _ & Hx). eapply shortest_ne; exact Hx.
  - destruct Hx as (n & _ & Hx). eapply shortest_ne; exact Hx.
  - eapply shortest_ne; exact Hx.
  - eapply shortest_ne; exact Hx.
  - eapply little_ne; [|exact Hx]; discriminate.
  - eapply little_ne; [|exact Hx]; discriminate.
  - eapply shortest_ne; exact Hx.
  - eapply shortest_ne; exact Hx.
  - eapply little_ne; [|exact Hx]; discriminate.
  - eapply little_ne; [|exact Hx]; discriminate.
  - destruct Hx as (n & _ & Hx). eapply little_ne; [|exact Hx]; discriminate.
  - destruct Hx as (n & _ & Hx). eapply little_ne; [|exact Hx]; discriminate.
Qed.

(* Encoding a message. *)
Lemma encode_message_spec fs ws parts : Forall good_field fs -> Forall2 carries fs ws -> Forall2 field_wire ws parts ->
  forall s, encode_message fs s = delivered s (concat parts).
Proof.
  intros Hg Hc. revert parts. induction Hc as [|[tag l] [[tag' t] p] fs ws (Et & Hw) Hc IH]; intros parts Hf s.
  - inversion Hf; subst. cbn [encode_message concat]. destruct s as [w [r|]]; unfold delivered; cbn [room written length].
    + rewrite app_nil_r. replace (N.of_nat 0 <=? r) with true by (symmetry; apply N.leb_le; lia).
      change (N.of_nat 0) with 0. now rewrite N.sub_0_r.
    + now rewrite app_nil_r.
  - inversion Hf as [|x bs y parts' Hx Hf']; subst. inversion Hg as [|x y (Ht & Hl & Hs) Hg']; subst.
    cbn [fst snd] in *. subst tag'. cbn [encode_message concat fst snd].
    rewrite (pencode_spec tag l t p bs s Ht Hl Hw (Hs t p Hw) Hx).
    rewrite <- (delivered_seq s bs (concat parts') N.add) by (rewrite app_length; lia).
    apply binds_ext. intros d n. now rewrite (IH Hg' parts' Hf' d).
Qed.

Lemma fields_exist fs : Forall good_field fs -> exists ws parts, Forall2 carries fs ws /\ Forall2 field_wire ws parts.
Proof.
  induction 1 as [|[tag l] fs (Ht & Hl & Hs) H (ws & parts & Hc & Hf)].
  - exists [], []. split; constructor.
  - cbn [fst snd] in *. destruct (lit_wire_exists l Hl) as (t & p & Hw). destruct (lit_wire_typ l t p Hw) as (n & Hn).
    destruct (field_wire_exists tag t p n Ht Hn (Hs t p Hw)) as (bs & Hb).
    exists ((tag, t, p) :: ws), (bs :: parts). split; constructor; auto. split; [reflexivity|exact Hw].
Qed.

Lemma carried_ok (ne : bool) fs ws : Forall good_field fs -> (ne = true -> Forall (fun f => nonempty_lit (snd f)) fs) -> Forall2 carries fs ws ->
  Forall (fun f => 1 <= fst (fst f) < 2 ^ 29 /\ payload_ok (snd (fst f)) (snd f) /\ (ne = true -> snd f <> [])) ws.
Proof.
  intros Hg Hn Hc. induction Hc as [|[tag l] [[tag' t] p] fs ws (Et & Hw) Hc IH]; constructor.
  - cbn [fst snd] in *. subst tag'. inversion Hg as [|x y (Ht & Hl & Hs) Hg']; subst. cbn [fst snd] in *.
    split; [exact Ht|]. split; [eapply lit_wire_payload; eauto|]. intros E. specialize (Hn E).
    inversion Hn; subst. eapply lit_wire_nonempty; eauto.
  - inversion Hg; subst. apply IH; auto. intros E. specialize (Hn E). now inversion Hn.
Qed.

(* C42 *)
Theorem message_round_trip m fs : Forall good_field fs -> Forall (fun f => nonempty_lit (snd f)) fs ->
  exists bs ws,
    (forall pre, encode_message fs (vec_sink pre) = (vec_sink (pre ++ bs), Ok (N.of_nat (length bs)))) /\
    (forall dst, pdecode m pdecoder_default bs dst = ((pdecoder_default, [], dst ++ ws), Ok (N.of_nat (length bs)))) /\
    Forall2 (fun f w => carries f w /\ reads_back m (snd f) (snd w)) fs ws.
Proof.
  intros Hg Hn. destruct (fields_exist fs Hg) as (ws & parts & Hc & Hf). exists (concat parts), ws.
  split; [intros pre; now rewrite (encode_message_spec fs ws parts Hg Hc Hf)|]. split.
  - intros dst. apply decode_message; [exact Hf|].
    pose proof (carried_ok true fs ws Hg (fun _ => Hn) Hc) as H. eapply Forall_impl; [|exact H]. cbn. tauto.
  - clear Hf Hn. induction Hc as [|f w fs ws Hfw Hc IH]; constructor.
    + split; [exact Hfw|]. destruct Hfw as [_ Hw]. inversion Hg as [|x y (Ht & Hl & Hs) Hg']; subst.
      eapply reads_back_all; eauto.
    + inversion Hg; subst. auto.
Qed.

(* C43 *)
Theorem message_round_trip_fully m fs : Forall good_field fs ->
  exists bs ws,
    (forall pre, encode_message fs (vec_sink pre) = (vec_sink (pre ++ bs), Ok (N.of_nat (length bs)))) /\
    (forall dst, decode_fully m pdecoder_default bs dst = ((pdecoder_default, [], dst ++ ws), Ok tt)) /\
    Forall2 (fun f w => carries f w /\ reads_back m (snd f) (snd w)) fs ws.
Proof.
  intros Hg. destruct (fields_exist fs Hg) as (ws & parts & Hc & Hf). exists (concat parts), ws.
  split; [intros pre; now rewrite (encode_message_spec fs ws parts Hg Hc Hf)|]. split.
  - intros dst. apply decode_message_fully; [exact Hf|].
    pose proof (carried_ok false fs ws Hg ltac:(discriminate) Hc) as H. eapply Forall_impl; [|exact H]. cbn. tauto.
  - clear Hf. induction Hc as [|f w fs ws Hfw Hc IH]; constructor.
    + split; [exact Hfw|]. destruct Hfw as [_ Hw]. inversion Hg as [|x y (Ht & Hl & Hs) Hg']; subst.
      eapply reads_back_all; eauto.
    + inversion Hg; subst. auto.
Qed.

(* C37 *)
Lemma pdecode_key_result m b : bytes b -> key_result m b (pdecode_key m b).
Proof.
  intros Hb. destruct (varint_cases m b Hb) as [(bs & v & rest & -> & Hr)|[Hs|Hl]].
  - destruct (key_cases m bs v Hr) as [(tag & t & n & -> & Hn & Ht)|Hbad].
    + rewrite (pdecode_key_ok m bs tag t n rest Hr Hn Ht). eapply kr_key; [reflexivity|]. exists n. auto.
    + rewrite (pdecode_key_bad m bs v rest Hr Hbad). eapply kr_bad; eauto.
  - unfold pdecode_key. rewrite (pdecode_varint_short m b Hs). now apply kr_short.
  - unfold pdecode_key. rewrite (pdecode_varint_long m b Hl). now apply kr_long.
Qed.

Lemma key_result_fun m b o : key_result m b o -> o = pdecode_key m b.
Proof.
  intros [bs rest tag t -> (n & Hr & Hn & Ht) | bs rest k -> Hr Hb | Hs | Hl]; symmetry.
  - eapply pdecode_key_ok; eauto.
  - eapply pdecode_key_bad; eauto.
  - unfold pdecode_key. now rewrite pdecode_varint_short.
  - unfold pdecode_key. now rewrite pdecode_varint_long.
Qed.

(* C44: any number of pieces. *)
Lemma decode_stuck m p rest dst : waiting m p rest -> idle p ->
  decode_fully m (decoder_of p) rest dst = ((decoder_of p, rest, dst), Ok tt).
Proof.
  intros Hw Hp. pose proof (decode_fully_run m p [] p [] rest (Ok tt) dst Hp (items_nil _ _ _) (halt_wait _ _ _ Hw)) as E.
  cbn [app] in E. now rewrite app_nil_r in E.
Qed.

Lemma feed_from m pieces : forall p left dst, bytes (left ++ concat pieces) -> idle p ->
  waiting m p left -> feed m (decoder_of p) left pieces dst = decode_fully m (decoder_of p) (left ++ concat pieces) dst.
Proof.
  induction pieces as [|x more IH]; intros p left dst Hb Hp Hw; cbn [feed concat] in *.
  - rewrite app_nil_r. symmetry. now apply decode_stuck.
  - rewrite app_assoc in *. pose proof Hb as Hb'. apply bytes_app in Hb' as [Hb1 Hb2].
    destruct (decode_fully_total m p (left ++ x) dst Hb1 Hp) as (a & p1 & hs & rest & o & Ea & Hi & Ho & Hp1 & E).
    rewrite E. destruct o as [[]|e| |].
    + rewrite (decode_split m p (left ++ x) (concat more) dst _ _ _ Hb Hp E). apply IH; auto.
      * apply bytes_app. split; [|exact Hb2]. rewrite Ea in Hb1. now apply bytes_app in Hb1.
      * inversion Ho; auto.
    + rewrite (decode_split_error m p (left ++ x) (concat more) dst _ _ _ _ Hb Hp E); [reflexivity|discriminate].
    + rewrite (decode_split_error m p (left ++ x) (concat more) dst _ _ _ _ Hb Hp E); [reflexivity|discriminate].
    + rewrite (decode_split_error m p (left ++ x) (concat more) dst _ _ _ _ Hb Hp E); [reflexivity|discriminate].
Qed.

Theorem feed_all m p pieces dst : bytes (concat pieces) -> idle p -> pieces <> [] ->
  feed m (decoder_of p) [] pieces dst = decode_fully m (decoder_of p) (concat pieces) dst.
Proof.
  intros Hb Hp Hne. destruct pieces as [|x more]; [congruence|]. cbn [feed concat app] in *.
  pose proof Hb as Hb'. apply bytes_app in Hb' as [Hb1 Hb2].
  destruct (decode_fully_total m p x dst Hb1 Hp) as (a & p1 & hs & rest & o & Ea & Hi & Ho & Hp1 & E).
  rewrite E. destruct o as [[]|e| |].
  - rewrite (decode_split m p x (concat more) dst _ _ _ Hb Hp E). apply feed_from; auto.
    + apply bytes_app. split; [|exact Hb2]. rewrite Ea in Hb1. now apply bytes_app in Hb1.
    + inversion Ho; auto.
  - rewrite (decode_split_error m p x (concat more) dst _ _ _ _ Hb Hp E); [reflexivity|discriminate].
  - rewrite (decode_split_error m p x (concat more) dst _ _ _ _ Hb Hp E); [reflexivity|discriminate].
  - rewrite (decode_split_error m p x (concat more) dst _ _ _ _ Hb Hp E); [reflexivity|discriminate].
Qed.

(* C46: all conversions. *)
Lemma to_bool_spec m l :
  match l with
  | DBool b => bytes b -> converts r_bool short_varint overlong false m b (to_bool m l)
  | _ => to_bool m l = Ok false
  end.
Proof. destruct l; try reflexivity. apply (or_default_converts reader_bool). Qed.
Lemma to_bool_vec_spec m l :
  match l with
  | DBoolVec b => bytes b -> converts_all r_bool short_varint overlong m b (to_bool_vec m l)
  | _ => to_bool_vec m l = Ok []
  end.
Proof. destruct l; try reflexivity. apply (or_default_all reader_bool). Qed.
Lemma to_i32_spec m l :
  match l with
  | DInt32 b => bytes b -> converts (r_int 32) short_varint overlong 0%Z m b (to_i32 m l)
  | DSInt32 b => bytes b -> converts (r_sint 32) short_varint overlong 0%Z m b (to_i32 m l)
  | DSFixed32 b => bytes b -> converts (r_sfixed 4 32) (short_fixed 4) never 0%Z m b (to_i32 m l)
  | _ => to_i32 m l = Ok 0%Z
  end.
Proof.
  destruct l; try reflexivity.
  - apply (or_default_converts rd_int32).
  - apply (or_default_converts rd_sint32).
  - apply (or_default_converts rd_sfixed32).
Qed.
Lemma to_i32_vec_spec m l :
  match l with
  | DInt32Vec b => bytes b -> converts_all (r_int 32) short_varint overlong m b (to_i32_vec m l)
  | DSInt32Vec b => bytes b -> converts_all (r_sint 32) short_varint overlong m b (to_i32_vec m l)
  | DSFixed32Vec b => bytes b -> converts_all (r_sfixed 4 32) (short_fixed 4) never m b (to_i32_vec m l)
  | _ => to_i32_vec m l = Ok []
  end.
Proof.
  destruct l; try reflexivity.
  - apply (or_default_all rd_int32).
  - apply (or_default_all rd_sint32).
  - apply (or_default_all rd_sfixed32).
Qed.
Lemma to_i64_spec m l :
  match l with
  | DInt64 b => bytes b -> converts (r_int 64) short_varint overlong 0%Z m b (to_i64 m l)
  | DSInt64 b => bytes b -> converts (r_sint 64) short_varint overlong 0%Z m b (to_i64 m l)
  | DSFixed64 b => bytes b -> converts (r_sfixed 8 64) (short_fixed 8) never 0%Z m b (to_i64 m l)
  | _ => to_i64 m l = Ok 0%Z
  end.
Proof.
  destruct l; try reflexivity.
  - apply (or_default_converts rd_int64).
  - apply (or_default_converts rd_sint64).
  - apply (or_default_converts rd_sfixed64).
Qed.
Lemma to_i64_vec_spec m l :
  match l with
  | DInt64Vec b => bytes b -> converts_all (r_int 64) short_varint overlong m b (to_i64_vec m l)
  | DSInt64Vec b => bytes b -> converts_all (r_sint 64) short_varint overlong m b (to_i64_vec m l)
  | DSFixed64Vec b => bytes b -> converts_all (r_sfixed 8 64) (short_fixed 8) never m b (to_i64_vec m l)
  | _ => to_i64_vec m l = Ok []
  end.
Proof.
  destruct l; try reflexivity.
  - apply (or_default_all rd_int64).
  - apply (or_default_all rd_sint64).
  - apply (or_default_all rd_sfixed64).
Qed.
Lemma to_u32_spec m l :
  match l with
  | DUInt32 b => bytes b -> converts (r_uint 32) short_varint overlong 0 m b (to_u32 m l)
  | DFixed32 b => bytes b -> converts (r_fixed 4) (short_fixed 4) never 0 m b (to_u32 m l)
  | _ => to_u32 m l = Ok 0
  end.
Proof.
  destruct l; try reflexivity.
  - apply (or_default_converts rd_uint32).
  - apply (or_default_converts rd_fixed32).
Qed.
Lemma to_u32_vec_spec m l :
  match l with
  | DUInt32Vec b => bytes b -> converts_all (r_uint 32) short_varint overlong m b (to_u32_vec m l)
  | DFixed32Vec b => bytes b -> converts_all (r_fixed 4) (short_fixed 4) never m b (to_u32_vec m l)
  | _ => to_u32_vec m l = Ok []
  end.
Proof.
  destruct l; try reflexivity.
  - apply (or_default_all rd_uint32).
  - apply (or_default_all rd_fixed32).
Qed.
Lemma to_u64_spec m l :
  match l with
  | DUInt64 b => bytes b -> converts (r_uint 64) short_varint overlong 0 m b (to_u64 m l)
  | DFixed64 b => bytes b -> converts (r_fixed 8) (short_fixed 8) never 0 m b (to_u64 m l)
  | _ => to_u64 m l = Ok 0
  end.
Proof.
  destruct l; try reflexivity.
  - apply (or_default_converts reader_uint64).
  - apply (or_default_converts rd_fixed64).
Qed.
Lemma to_u64_vec_spec m l :
  match l with
  | DUInt64Vec b => bytes b -> converts_all (r_uint 64) short_varint overlong m b (to_u64_vec m l)
  | DFixed64Vec b => bytes b -> converts_all (r_fixed 8) (short_fixed 8) never m b (to_u64_vec m l)
  | _ => to_u64_vec m l = Ok []
  end.
Proof.
  destruct l; try reflexivity.
  - apply (or_default_all reader_uint64).
  - apply (or_default_all rd_fixed64).
Qed.
Lemma to_f32_spec m l :
  match l with
  | DFloat b => bytes b -> converts (r_fixed 4) (short_fixed 4) never 0 m b (to_f32 m l)
  | _ => to_f32 m l = Ok 0
  end.
Proof. destruct l; try reflexivity. apply (or_default_converts rd_float). Qed.
Lemma to_f32_vec_spec m l :
  match l with
  | DFloatVec b => bytes b -> converts_all (r_fixed 4) (short_fixed 4) never m b (to_f32_vec m l)
  | _ => to_f32_vec m l = Ok []
  end.
Proof. destruct l; try reflexivity. apply (or_default_all rd_float). Qed.
Lemma to_f64_spec m l :
  match l with
  | DDouble b => bytes b -> converts (r_fixed 8) (short_fixed 8) never 0 m b (to_f64 m l)
  | _ => to_f64 m l = Ok 0
  end.
Proof. destruct l; try reflexivity. apply (or_default_converts rd_double). Qed.
Lemma to_f64_vec_spec m l :
  match l with
  | DDoubleVec b => bytes b -> converts_all (r_fixed 8) (short_fixed 8) never m b (to_f64_vec m l)
  | _ => to_f64_vec m l = Ok []
  end.
Proof. destruct l; try reflexivity. apply (or_default_all rd_double). Qed.
