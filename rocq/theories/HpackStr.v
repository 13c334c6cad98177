(* String literals (RFC 7541 section 5.2). *)
From Verif Require Import Base HuffModel HuffSpec HuffCode HuffEncProofs HuffDecProofs HuffDerived
  Leb HpackModel HpackSpec HpackApi HpackInt.
Open Scope N_scope.

Lemma p7 : prefix_ok 7. Proof. unfold prefix_ok. lia. Qed.
Lemma p6 : prefix_ok 6. Proof. unfold prefix_ok. lia. Qed.
Lemma p5 : prefix_ok 5. Proof. unfold prefix_ok. lia. Qed.
Lemma p4 : prefix_ok 4. Proof. unfold prefix_ok. lia. Qed.

Lemma string_wire_le lim lim' (pad pad' : list bool -> Prop) h bs s : (lim <= lim')%nat ->
  (forall r, pad r -> pad' r) ->
  string_wire lim pad h bs s -> string_wire lim' pad' h bs s.
Proof.
  intros Hl Hp H. destruct H as [lb s Hi|lb h s rest Hi Hb Hs Hr].
  - constructor. eapply int_wire_le; [eauto|]. apply int_wire_len in Hi. lia.
  - econstructor; eauto. eapply int_wire_le; [eauto|]. apply int_wire_len in Hi. lia.
Qed.

Lemma rfc_ones k : (k < 8)%nat -> rfc_padding (repeat true k).
Proof.
  intros H. split; [rewrite code_eos; apply prefix_repeat; lia|]. rewrite repeat_length. exact H.
Qed.

(* encode_string, completely. *)
Lemma encode_string_ok m data h dst : bytes data ->
  (coded_length h data <= U32_MAX ->
   exists bs, encode_string m data h dst = (dst ++ bs, Ok tt) /\
     string_wire 6 rfc_padding h bs data /\
     (coded_length h data < 127 + 2 ^ 28 -> string_wire 5 rfc_padding h bs data) /\
     (forall lim bs', string_wire lim rfc_padding h bs' data -> (length bs <= length bs')%nat)) /\
  (U32_MAX < coded_length h data -> encode_string m data h dst = (dst, Err EIntegerOverflow)).
Proof.
  intros Hb. unfold encode_string.
  assert (Hint : forall len f, (f = 0 \/ f = 128) -> len <= U32_MAX ->
    exists lb, encode_integer len f 7 dst = (dst ++ lb, Ok tt) /\
      int_wire 6 7 (f / 2 ^ 7) lb len /\ (len < 127 + 2 ^ 28 -> int_wire 5 7 (f / 2 ^ 7) lb len) /\
      (forall lim bs', int_wire lim 7 (f / 2 ^ 7) bs' len -> (length lb <= length bs')%nat)).
  { intros len f Hf Hlen. destruct (encode_integer_ok len f 7 dst p7) as (lb & He & Hw & Hs & _ & Hm).
    - destruct Hf; subst; lia.
    - unfold U32_MAX in Hlen. change (2 ^ 32) with 4294967296 in *. lia.
    - exists lb. split; [exact He|split; [exact Hw|split; [|exact Hm]]].
      intros Hl. eapply int_wire_le; [exact Hw|]. apply Hs. exact Hl. }
  destruct h.
  - destruct (encode_ok m data [] Hb) as (out & k & He & Ho & Hk & Hbits).
    pose proof (encode_size m data [] out Hb He) as Hsz. simpl app in He.
    rewrite He. cbn [enc_of_huff bind bindd coded_length]. rewrite <- Hsz.
    split.
    + intros Hlen. replace (U32_MAX <? N.of_nat (length out)) with false by (symmetry; apply N.ltb_ge; lia).
      destruct (Hint (N.of_nat (length out)) 128 (or_intror eq_refl) Hlen) as (lb & Hlb & Hw6 & Hw5 & Hmin).
      rewrite Hlb. simpl. exists (lb ++ out). split; [now rewrite app_assoc|].
      change (128 / 2 ^ 7) with 1 in *.
      assert (Hsp : splits (bits_of_bytes out) data (repeat true k)).
      { rewrite Hbits. apply splits_encoded; auto. }
      split; [|split].
      * econstructor; eauto. apply rfc_ones; auto.
      * intros Hl. econstructor; eauto. apply rfc_ones; auto.
      * intros lim bs' Hbs'. inversion Hbs' as [|lb' h' s' rest' Hi' Hb' Hs' Hp']; subst.
        assert (El : length out = length h').
        { destruct Hs' as (Hs' & _ & _).
          assert (L1 : (8 * length h' = length (codes data) + length rest')%nat).
          { rewrite <- bits_of_bytes_length, Hs', app_length. reflexivity. }
          assert (L2 : (8 * length out = length (codes data) + k)%nat).
          { rewrite <- bits_of_bytes_length, Hbits, app_length, repeat_length. reflexivity. }
          destruct Hp' as [_ Hp']. lia. }
        rewrite El in Hmin. rewrite !app_length, El. apply Hmin in Hi'. lia.
    + intros Hlen. replace (U32_MAX <? N.of_nat (length out)) with true by (symmetry; apply N.ltb_lt; lia).
      reflexivity.
  - cbn [bind bindd coded_length]. split.
    + intros Hlen. replace (U32_MAX <? N.of_nat (length data)) with false by (symmetry; apply N.ltb_ge; lia).
      destruct (Hint (N.of_nat (length data)) 0 (or_introl eq_refl) Hlen) as (lb & Hlb & Hw6 & Hw5 & Hmin).
      rewrite Hlb. simpl. exists (lb ++ data). split; [now rewrite app_assoc|].
      change (0 / 2 ^ 7) with 0 in *. split; [|split].
      * constructor; auto.
      * intros Hl. constructor; auto.
      * intros lim bs' Hbs'. inversion Hbs' as [lb' s' Hi'|]; subst.
        rewrite !app_length. apply Hmin in Hi'. lia.
    + intros Hlen. replace (U32_MAX <? N.of_nat (length data)) with true by (symmetry; apply N.ltb_lt; lia).
      reflexivity.
Qed.

(* ------------------------------------------------------------------ *)
(* decode_string *)

Lemma hd_wire lim p hi bs v : int_wire lim p hi bs v -> exists x t, bs = x :: t /\
  (x = hi * 2 ^ p + (if v <? 2 ^ p - 1 then v else 2 ^ p - 1)).
Proof.
  intros H. inversion H as [v' Hs Hl|t r Ht Hl]; subst; eexists; eexists; split; try reflexivity.
  - replace (v <? 2 ^ p - 1) with true by (symmetry; apply N.ltb_lt; lia). reflexivity.
  - replace (2 ^ p - 1 + r <? 2 ^ p - 1) with false by (symmetry; apply N.ltb_ge; lia). reflexivity.
Qed.

Lemma huff_flag b : b < 256 -> (N.land b 128 =? 128) = (128 <=? b).
Proof.
  intros H. apply Bool.eqb_prop.
  refine (all_below 256 (fun b => Bool.eqb (N.land b 128 =? 128) (128 <=? b)) _ b H).
  vm_compute. reflexivity.
Qed.

Lemma wire7_hi lim hi bs v : int_wire lim 7 hi bs v -> bytes bs -> (hi = 0 \/ hi = 1) /\ (128 <=? hd 0 bs) = (hi =? 1).
Proof.
  intros H Hb. destruct (hd_wire _ _ _ _ _ H) as (x & t & -> & Hx). apply bytes_cons in Hb as [Hb _].
  change (2 ^ 7) with 128 in Hx. simpl hd.
  assert (Hlow : (if v <? 128 - 1 then v else 128 - 1) <= 127).
  { destruct (v <? 128 - 1) eqn:E; [apply N.ltb_lt in E; lia|lia]. }
  assert (hi = 0 \/ hi = 1) as [-> | ->] by lia; split; auto.
  - simpl. apply N.leb_gt. lia.
  - simpl. apply N.leb_le. lia.
Qed.

(* The body of decode_string after the length. *)
Lemma decode_string_len m sp hi lb len rest :
  int_wire 5 7 hi lb len -> bytes lb ->
  decode_string m sp (lb ++ rest) =
    if N.of_nat (length rest) <? len then Err DIntegerUnderflow
    else if hi =? 1 then
      let '(d, r) := decode m sp (firstn (N.to_nat len) rest) [] in
      _ <- dec_of_huff r ;; Ok (d, N.of_nat (length lb) + len)
    else Ok (firstn (N.to_nat len) rest, N.of_nat (length lb) + len).
Proof.
  intros Hw Hb.
  destruct (wire7_hi _ _ _ _ Hw Hb) as [Hhi Hflag].
  pose proof (decode_integer_wire 7 hi lb len rest p7 Hw) as Hd.
  destruct (hd_wire _ _ _ _ _ Hw) as (x & t & E & Hx).
  assert (Hx256 : x < 256) by (subst lb; apply bytes_cons in Hb; tauto).
  unfold decode_string. subst lb. cbn [app] in *. rewrite Hd. cbn [bind].
  change (x :: t ++ rest) with ((x :: t) ++ rest). rewrite app_length.
  rewrite (u_sub_ok m 64) by lia. cbn [bind].
  replace (N.of_nat (length (x :: t) + length rest) - N.of_nat (length (x :: t))) with (N.of_nat (length rest)) by lia.
  rewrite huff_flag by exact Hx256. simpl hd in Hflag. rewrite Hflag.
  rewrite Nat2N.id. rewrite skipn_app, skipn_all, Nat.sub_diag. reflexivity.
Qed.

Lemma decode_string_wire m sp h bs s rest : bytes bs -> string_wire 5 code_padding h bs s ->
  decode_string m sp (bs ++ rest) = Ok (s, N.of_nat (length bs)).
Proof.
  intros Hb H. destruct H as [lb s Hi|lb h s tl Hi Hh Hs Hp].
  - apply bytes_app in Hb as [Hb1 Hb2]. rewrite <- app_assoc.
    rewrite (decode_string_len m sp 0 lb _ _ Hi Hb1). rewrite !app_length.
    replace (N.of_nat (length s + length rest) <? N.of_nat (length s)) with false by (symmetry; apply N.ltb_ge; lia).
    change (0 =? 1) with false. cbn iota. rewrite Nat2N.id, firstn_app, firstn_all, Nat.sub_diag. simpl.
    rewrite app_nil_r. f_equal. f_equal. lia.
  - apply bytes_app in Hb as [Hb1 Hb2]. rewrite <- app_assoc.
    rewrite (decode_string_len m sp 1 lb _ _ Hi Hb1). rewrite !app_length.
    replace (N.of_nat (length h + length rest) <? N.of_nat (length h)) with false by (symmetry; apply N.ltb_ge; lia).
    change (1 =? 1) with true. cbn iota. rewrite Nat2N.id, firstn_app, firstn_all, Nat.sub_diag.
    rewrite firstn_O, app_nil_r, (decode_ok m sp h [] s tl Hh Hs). unfold verdict. unfold code_padding in Hp. rewrite Hp.
    cbn [app dec_of_huff bind]. f_equal. f_equal. lia.
Qed.

Lemma decode_integer_fault p hi bs f : prefix_ok p -> int_fault p hi bs f ->
  decode_integer bs p = fault_outcome f.
Proof.
  intros Hp H. destruct H as [H|H]; simpl; [eapply decode_integer_cut|eapply decode_integer_long]; eauto.
Qed.

Lemma decode_string_fault m sp bs f : bytes bs -> string_fault bs f ->
  decode_string m sp bs = fault_outcome f.
Proof.
  intros Hb H. destruct H as [|hi bs f Hhi H|hi lb len body Hhi Hi Hlt|lb h rest syms tl Hi Hs Hp].
  - reflexivity.
  - unfold decode_string. rewrite (decode_integer_fault 7 hi bs f p7 H).
    destruct H as [(t & -> & _)|(t & r & -> & _)]; reflexivity.
  - apply bytes_app in Hb as [Hb1 Hb2]. rewrite (decode_string_len m sp hi lb len body Hi Hb1).
    replace (N.of_nat (length body) <? len) with true by (symmetry; apply N.ltb_lt; lia). reflexivity.
  - apply bytes_app in Hb as [Hb1 Hb2]. apply bytes_app in Hb2 as [Hb2 Hb3].
    rewrite (decode_string_len m sp 1 lb _ _ Hi Hb1). rewrite app_length.
    replace (N.of_nat (length h + length rest) <? N.of_nat (length h)) with false by (symmetry; apply N.ltb_ge; lia).
    change (1 =? 1) with true. cbn iota. rewrite Nat2N.id, firstn_app, firstn_all, Nat.sub_diag.
    rewrite firstn_O, app_nil_r, (decode_ok m sp h [] syms tl Hb2 Hs). unfold verdict. unfold code_padding in Hp.
    destruct (tail_accepted tl); [tauto|]. reflexivity.
Qed.

Inductive string_case (buf : list N) : Prop :=
| sc_ok h bs s rest : buf = bs ++ rest -> string_wire 5 code_padding h bs s -> string_case buf
| sc_fault f : string_fault buf f -> string_case buf.

Lemma hd_hi buf : bytes buf -> hd 0 buf / 2 ^ 7 <= 1.
Proof.
  intros Hb. assert (hd 0 buf < 256).
  { destruct buf; [simpl; lia|]. apply bytes_cons in Hb. simpl. tauto. }
  assert (hd 0 buf / 2 ^ 7 < 2); [|lia]. apply N.div_lt_upper_bound; [discriminate|].
  change (2 ^ 7 * 2) with 256. assumption.
Qed.

Lemma string_cases buf : bytes buf -> string_case buf.
Proof.
  intros Hb. pose proof (hd_hi buf Hb) as Hhi.
  destruct (int_cases 7 buf p7 Hb) as [lb len rest E Hw| -> |Hc|Hl].
  - remember (hd 0 buf / 2 ^ 7) as hi eqn:Ehi. clear Ehi. subst buf. apply bytes_app in Hb as [Hb1 Hb2].
    destruct (N.lt_ge_cases (N.of_nat (length rest)) len) as [Hlt|Hge].
    + apply (sc_fault _ Short). apply (sf_short hi lb len rest); auto.
    + pose (h := firstn (N.to_nat len) rest). pose (r := skipn (N.to_nat len) rest).
      assert (E : rest = h ++ r) by (symmetry; apply firstn_skipn).
      assert (Hlen : len = N.of_nat (length h)).
      { unfold h. rewrite firstn_length. lia. }
      clearbody h r. subst rest len. apply bytes_app in Hb2 as [Hb2 Hb3].
      assert (hi = 0 \/ hi = 1) as [-> | ->] by lia.
      * apply (sc_ok _ false (lb ++ h) h r); [now rewrite app_assoc|]. constructor. exact Hw.
      * destruct (splits_total (bits_of_bytes h)) as (syms & tl & Hs).
        destruct (tail_accepted tl) eqn:Et.
        -- apply (sc_ok _ true (lb ++ h) syms r); [now rewrite app_assoc|]. econstructor; eauto.
        -- apply (sc_fault _ BadHuffman). apply (sf_huffman lb h r syms tl); auto.
           unfold code_padding. rewrite Et. discriminate.
  - apply (sc_fault _ Cut). constructor.
  - apply (sc_fault _ Cut). apply (sf_int _ _ _ Hhi). constructor. exact Hc.
  - apply (sc_fault _ Long). apply (sf_int _ _ _ Hhi). constructor. exact Hl.
Qed.

Lemma fault_not_ok {A} f (x : A) : fault_outcome f <> Ok x.
Proof. destruct f; discriminate. Qed.

Lemma decode_string_iff m sp buf s n : bytes buf ->
  (decode_string m sp buf = Ok (s, n) <->
   exists h bs rest, buf = bs ++ rest /\ string_wire 5 code_padding h bs s /\ n = N.of_nat (length bs)).
Proof.
  intros Hb. split.
  - intros H. destruct (string_cases buf Hb) as [h bs s' rest -> Hw|f Hf].
    + apply bytes_app in Hb as [Hb1 Hb2].
      rewrite (decode_string_wire m sp h bs s' rest Hb1 Hw) in H. injection H as <- <-. eauto 6.
    + rewrite (decode_string_fault m sp buf f Hb Hf) in H. apply fault_not_ok in H. destruct H.
  - intros (h & bs & rest & -> & Hw & ->). apply bytes_app in Hb as [Hb1 Hb2].
    eapply decode_string_wire; eauto.
Qed.

Lemma string_wire_nonempty lim pad h bs s : string_wire lim pad h bs s -> (1 <= length bs)%nat.
Proof.
  intros H. destruct H as [lb s Hi|lb h s tl Hi Hh Hs Hp]; apply int_wire_len in Hi; rewrite app_length; lia.
Qed.

Lemma string_wire_bytes_s lim pad h bs s : string_wire lim pad h bs s -> bytes bs -> bytes s.
Proof.
  intros H Hb. destruct H as [lb s Hi|lb h s tl Hi Hh Hs Hp].
  - apply bytes_app in Hb. tauto.
  - apply Hs.
Qed.

Lemma string_wire_bytes lim pad h bs s : string_wire lim pad h bs s -> bytes s -> bytes bs.
Proof.
  intros H Hb. destruct H as [lb s Hi|lb h s tl Hi Hh Hs Hp]; apply bytes_app; split; auto;
    (eapply (int_wire_bytes _ 7); [apply p7| |eauto]; compute; reflexivity).
Qed.
