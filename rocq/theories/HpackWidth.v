(* The HPACK crate where usize has [w] bits.

   HpackModel.v has w = 64 and adds entry sizes without wrapping.  The definitions
   below are those of HpackModel.v with every usize operation done on [w] bits; they
   differ in the dynamic table (`size: usize`), in decode_string, and in the Huffman
   decoder (`decode_on`).  Sums of octet counts (`total`) do not exceed the length of
   the buffer and are not wrapped. *)
From Verif Require Import Base HuffModel HuffSpec HuffCode HuffDecProofs Leb HpackStatic HpackModel HpackSpec HpackApi
  HpackInt HpackStr HpackTab HpackDec HpackEnc HpackDerived HpackMore HpackMore2.
Open Scope list_scope.
Open Scope N_scope.

(* ------------------------------------------------------------------ *)
(* Model. *)

(* hpack/src/table/dynamic.rs:95-101, consolidate *)
Fixpoint consolidate_loop_on {E} (w : N) (m : mode) (fuel : nat) (t : dynamic_table) : outcome E dynamic_table :=
  if dmax t <? dsize t then
    match fuel with
    | O => OutOfFuel
    | S fuel' =>
        match rev (inner t) with
        | [] => consolidate_loop_on w m fuel' t
        | h :: r =>
            l <- u_add m w (N.of_nat (List.length (fst h))) (N.of_nat (List.length (snd h))) ;;
            l <- u_add m w l 32 ;;
            size' <- u_sub m w (dsize t) l ;;
            consolidate_loop_on w m fuel' (mkDyn (rev r) size' (dmax t))
        end
    end
  else Ok t.
(* hpack/src/table/dynamic.rs:95-101, consolidate *)
Definition consolidate_on {E} (w : N) (m : mode) (t : dynamic_table) : outcome E dynamic_table :=
  consolidate_loop_on w m (S (List.length (inner t))) t.

(* hpack/src/table/dynamic.rs:56-60, hpack/src/table/mod.rs:121-123 *)
Definition table_update_max_on {E} (w : N) (m : mode) (t : table) (size : N) : outcome E table :=
  consolidate_on w m (mkDyn (inner t) (dsize t) size).

(* hpack/src/table/dynamic.rs:85-90, `self.size += name.len() + value.len() + 32`; hpack/src/table/mod.rs:183-185 *)
Definition table_insert_on {E} (w : N) (m : mode) (t : table) (name value : list N) : outcome E table :=
  l <- u_add m w (N.of_nat (List.length name)) (N.of_nat (List.length value)) ;;
  l <- u_add m w l 32 ;;
  size' <- u_add m w (dsize t) l ;;
  consolidate_on w m (mkDyn ((name, value) :: inner t) size' (dmax t)).

(* hpack/src/encoder/mod.rs:260-284 *)
Definition encode_indexed_name_on (w : N) (m : mode) (t : table) (index : N) (value : list N) (flags : N) (dst : list N)
  : enc_state * outcome enc_error unit :=
  match table_get t index with
  | None => ((t, dst), Err EInvalidIndex)
  | Some e =>
      let name := fst e in
      binds
        (if has_flag flags 4 then
           t' <-[(t, dst)] table_insert_on w m t name value ;;
           with_table t' (encode_integer index 64 6 dst)
         else if has_flag flags 8 then with_table t (encode_integer index 16 4 dst)
         else with_table t (encode_integer index 0 4 dst))
        (fun td _ => with_table (fst td) (encode_string m value (has_flag flags 2) (snd td)))
  end.

(* hpack/src/encoder/mod.rs:354-373 *)
Definition encode_literal_on (w : N) (m : mode) (t : table) (name value : list N) (flags : N) (dst : list N)
  : enc_state * outcome enc_error unit :=
  binds
    (if has_flag flags 4 then
       t' <-[(t, dst ++ [64])] table_insert_on w m t name value ;;
       ((t', dst ++ [64]), Ok tt)
     else if has_flag flags 8 then ((t, dst ++ [16]), Ok tt)
     else ((t, dst ++ [0]), Ok tt))
    (fun td _ =>
       binds (with_table (fst td) (encode_string m name (has_flag flags 1) (snd td)))
         (fun td' _ => with_table (fst td') (encode_string m value (has_flag flags 2) (snd td')))).

(* hpack/src/encoder/mod.rs:141-174, encode *)
Definition hencode_on (w : N) (m : mode) (t : table) (field : encoder_input) (dst : list N)
  : enc_state * outcome enc_error unit :=
  match field with
  | Indexed index => encode_indexed t index dst
  | IndexedName index value flags => encode_indexed_name_on w m t index value flags dst
  | Literal name value flags =>
      if has_flag flags 16 then
        found <-[(t, dst)] table_find m t name value ;;
        match found with
        | Some (index, true) => encode_indexed t (wrap 32 index) dst
        | Some (index, false) => encode_indexed_name_on w m t (wrap 32 index) value flags dst
        | None => encode_literal_on w m t name value flags dst
        end
      else encode_literal_on w m t name value flags dst
  end.

(* hpack/src/encoder/mod.rs:393-400 *)
Definition encoder_update_max_on (w : N) (m : mode) (t : table) (size : N) (dst : list N)
  : enc_state * outcome enc_error unit :=
  t' <-[(t, dst)] table_update_max_on w m t size ;;
  with_table t' (encode_integer size 32 5 dst).

(* hpack/src/decoder/primitives.rs:107-126 *)
Definition decode_string_on (w : N) (m : mode) (s : speed) (buf : list N) : outcome dec_error (list N * N) :=
  match buf with
  | [] => Panic
  | b0 :: _ =>
      let huffman := N.land b0 128 =? 128 in
      lt <- decode_integer buf 7 ;;
      let '(len, total) := lt in
      avail <- u_sub m w (N.of_nat (List.length buf)) total ;;
      if avail <? wrap w len then Err DIntegerUnderflow
      else
        let body := firstn (N.to_nat (wrap w len)) (skipn (N.to_nat total) buf) in
        if huffman then
          let '(d, r) := decode_on w m s body [] in
          _ <- dec_of_huff r ;; Ok (d, total + wrap w len)
        else Ok (body, total + wrap w len)
  end.

(* hpack/src/decoder/mod.rs:308-349 *)
Definition decode_literal_on (w : N) (m : mode) (d : decoder) (buf : list N) (dst : list header)
  : dec_state * outcome dec_error N :=
  match buf with
  | [] => ((d, buf, dst), Panic)
  | octet :: _ =>
      let prefix := if N.land octet 64 =? 64 then 6 else 4 in
      it <-[(d, buf, dst)] decode_integer buf prefix ;;
      let '(index, total) := it in
      nt <-[(d, buf, dst)]
        (if index =? 0 then
           st <- decode_string_on w m (dspeed d) (drain buf total) ;;
           Ok (fst st, total + snd st)
         else
           match table_get (dtable d) index with
           | Some h => Ok (fst h, total)
           | None => Err DInvalidIndex
           end) ;;
      let '(name, total) := nt in
      vt <-[(d, buf, dst)] decode_string_on w m (dspeed d) (drain buf total) ;;
      let '(value, n) := vt in
      let total := total + n in
      if N.land octet 64 =? 64 then
        t' <-[(d, buf, dst)] table_insert_on w m (dtable d) name value ;;
        ((set_table d t', drain buf total, dst ++ [(name, value, 4)]), Ok total)
      else if N.land octet 16 =? 16 then
        ((d, drain buf total, dst ++ [(name, value, 8)]), Ok total)
      else ((d, drain buf total, dst ++ [(name, value, 0)]), Ok total)
  end.

(* hpack/src/decoder/mod.rs:372-387 *)
Definition decoder_update_max_on (w : N) (m : mode) (d : decoder) (buf : list N) (dst : list header)
  : dec_state * outcome dec_error N :=
  st <-[(d, buf, dst)] decode_integer buf 5 ;;
  let '(new_size, total) := st in
  if dlimit d <? new_size then ((d, buf, dst), Err DInvalidMaxDynamicSize)
  else
    t' <-[(d, buf, dst)] table_update_max_on w m (dtable d) new_size ;;
    ((set_table d t', drain buf total, dst), Ok total).

(* hpack/src/decoder/mod.rs:152-165, one iteration of decode_exact *)
Definition decode_one_on (w : N) (m : mode) (d : decoder) (buf : list N) (dst : list header)
  : dec_state * outcome dec_error N :=
  match buf with
  | [] => ((d, buf, dst), Panic)
  | octet :: _ =>
      if N.land octet 128 =? 128 then decode_indexed d buf dst
      else if N.land octet 64 =? 64 then decode_literal_on w m d buf dst
      else if N.land octet 32 =? 32 then
        binds (decoder_update_max_on w m d buf dst) (fun s _ => (s, Ok 0))
      else if N.land octet 16 =? 16 then decode_literal_on w m d buf dst
      else decode_literal_on w m d buf dst
  end.

(* hpack/src/decoder/mod.rs:138-165, decode_exact *)
Fixpoint decode_exact_loop_on (w : N) (m : mode) (limit : nat) (d : decoder) (buf : list N) (dst : list header) (total : N)
  : dec_state * outcome dec_error N :=
  match buf, limit with
  | [], _ => ((d, buf, dst), Ok total)
  | _, O => ((d, buf, dst), Ok total)
  | _, S limit' =>
      binds (decode_one_on w m d buf dst)
        (fun s n => let '(d', buf', dst') := s in
                    decode_exact_loop_on w m limit' d' buf' dst' (total + n))
  end.
(* hpack/src/decoder/mod.rs:138-165, decode_exact *)
Definition hdecode_exact_on (w : N) (m : mode) (cap : nat) (d : decoder) (buf : list N) (dst : list header)
  : dec_state * outcome dec_error N :=
  decode_exact_loop_on w m cap d buf dst 0.

(* hpack/src/decoder/mod.rs:100-115, decode *)
Fixpoint decode_loop_on (w : N) (m : mode) (fuel : nat) (d : decoder) (buf : list N) (dst : list header) (total : N)
  : dec_state * outcome dec_error N :=
  match buf with
  | [] => ((d, buf, dst), Ok total)
  | _ =>
      match fuel with
      | O => ((d, buf, dst), OutOfFuel)
      | S fuel' =>
          match hdecode_exact_on w m 1 d buf [] with
          | ((d', buf', data), Ok n) => decode_loop_on w m fuel' d' buf' (dst ++ data) (total + n)
          | ((d', buf', _), Err e) => ((d', buf', dst), Err e)
          | ((d', buf', _), Panic) => ((d', buf', dst), Panic)
          | ((d', buf', _), OutOfFuel) => ((d', buf', dst), OutOfFuel)
          end
      end
  end.
(* hpack/src/decoder/mod.rs:100-115, decode *)
Definition hdecode_on (w : N) (m : mode) (d : decoder) (buf : list N) (dst : list header)
  : dec_state * outcome dec_error N :=
  decode_loop_on w m (List.length buf) d buf dst 0.

(* ------------------------------------------------------------------ *)
(* Same results as long as no sum of sizes reaches 2^w. *)
Lemma entry_sum {E} m w (n v : list N) : line_size (n, v) < 2 ^ w ->
  (l <- @u_add E m w (N.of_nat (List.length n)) (N.of_nat (List.length v)) ;; u_add m w l 32) = Ok (line_size (n, v)).
Proof.
  unfold line_size. cbn [fst snd]. intros H.
  rewrite u_add_ok by lia. cbn [bind]. rewrite u_add_ok by lia. reflexivity.
Qed.

Lemma consolidate_same {E} m w : forall fuel t, dsize t = size (inner t) -> dsize t < 2 ^ w ->
  @consolidate_loop_on E w m fuel t = consolidate_loop m fuel t.
Proof.
  induction fuel as [|fuel IH]; intros [l s mx] Hs Hw; cbn [inner dsize dmax consolidate_loop_on consolidate_loop] in *; [reflexivity|].
  destruct (mx <? s); [|reflexivity].
  destruct (rev l) as [|[n v] r] eqn:Er; [exact (IH (mkDyn l s mx) Hs Hw)|].
  assert (El : l = rev r ++ [(n, v)]) by (rewrite <- (rev_involutive l), Er; reflexivity).
  assert (Hsz : size l = size (rev r) + line_size (n, v)) by (rewrite El, size_app; cbn [size]; lia).
  pose proof (@entry_sum E m w n v) as Hsum. cbn [fst snd].
  rewrite line_size_eq.
  assert (Hlt : line_size (n, v) < 2 ^ w) by lia. specialize (Hsum Hlt).
  destruct (u_add m w (N.of_nat (List.length n)) (N.of_nat (List.length v))) as [x| | |]; cbn [bind] in *; try discriminate.
  rewrite Hsum. cbn [bind].
  rewrite !u_sub_ok by lia. cbn [bind]. apply IH; cbn [inner dsize]; lia.
Qed.

Lemma insert_same {E} m w t n v : wf t -> dsize t + line_size (n, v) < 2 ^ w ->
  @table_insert_on E w m t n v = table_insert m t n v.
Proof.
  intros (Hs & _ & _) Hlt. unfold table_insert_on, table_insert, consolidate_on, consolidate.
  pose proof (@entry_sum E m w n v) as Hsum. assert (Hl : line_size (n, v) < 2 ^ w) by lia. specialize (Hsum Hl).
  destruct (u_add m w (N.of_nat (List.length n)) (N.of_nat (List.length v))) as [x| | |]; cbn [bind] in *; try discriminate.
  rewrite Hsum. cbn [bind]. rewrite u_add_ok by exact Hlt. cbn [bind]. rewrite line_size_eq.
  apply consolidate_same; cbn [inner dsize size]; lia.
Qed.

Lemma update_same_on {E} m w t n : wf t -> 32 <= w -> @table_update_max_on E w m t n = table_update_max m t n.
Proof.
  intros (Hs & Hm & H32) Hw. unfold table_update_max_on, table_update_max, consolidate_on, consolidate.
  apply consolidate_same; cbn [inner dsize]; [exact Hs|].
  apply N.lt_le_trans with (2 ^ 32); [|apply N.pow_le_mono_r; [discriminate|exact Hw]].
  eapply N.le_lt_trans; [|exact H32]. rewrite Hs. exact Hm.
Qed.

(* Encoder. *)
Lemma indexed_name_same_on w m t i v fl dst e : wf t -> lookup (inner t) i = Some e ->
  dmax t + line_size (fst e, v) < 2 ^ w ->
  encode_indexed_name_on w m t i v fl dst = encode_indexed_name m t i v fl dst.
Proof.
  intros Hw He Hlt. unfold encode_indexed_name_on, encode_indexed_name. rewrite get_lookup, He.
  destruct (has_flag fl 4); [|reflexivity].
  rewrite (insert_same m w t (fst e) v Hw); [reflexivity|]. destruct Hw as (Hs & Hm & _). lia.
Qed.

Lemma literal_same_on w m t n v fl dst : wf t -> dmax t + line_size (n, v) < 2 ^ w ->
  encode_literal_on w m t n v fl dst = encode_literal m t n v fl dst.
Proof.
  intros Hw Hlt. unfold encode_literal_on, encode_literal. destruct (has_flag fl 4); [|reflexivity].
  rewrite (insert_same m w t n v Hw); [reflexivity|]. destruct Hw as (Hs & Hm & _). lia.
Qed.

Theorem hencode_on_same w m t f dst : wf t -> input_ok f ->
  (forall e, field_of (inner t) f = Some e -> dmax t + line_size e < 2 ^ w) ->
  hencode_on w m t f dst = hencode m t f dst.
Proof.
  intros Hw Hi Hf. destruct f as [i|i v fl|n v fl]; cbn [hencode_on hencode]; [reflexivity| |].
  - cbn [field_of] in Hf. destruct (lookup (inner t) i) as [e|] eqn:El.
    + apply (indexed_name_same_on w m t i v fl dst e Hw El). apply Hf. reflexivity.
    + unfold encode_indexed_name_on, encode_indexed_name. rewrite get_lookup, El. reflexivity.
  - specialize (Hf (n, v) eq_refl). destruct (has_flag fl 16); [|apply literal_same_on; assumption].
    destruct (@table_find_ok enc_error m t n v Hw) as (r & -> & Hr). cbn [bindd].
    destruct r as [[i []]|]; [reflexivity| |apply literal_same_on; assumption].
    destruct Hr as ((v' & He) & _).
    assert (Hs : wrap 32 i = i).
    { unfold wrap. apply N.mod_small. pose proof (lookup_index_small t i _ Hw He).
      eapply N.lt_trans; [eassumption|reflexivity]. }
    rewrite Hs. exact (indexed_name_same_on w m t i v fl dst _ Hw He Hf).
Qed.

Theorem encoder_update_on_same w m t n dst : wf t -> 32 <= w ->
  encoder_update_max_on w m t n dst = encoder_update_max m t n dst.
Proof. intros Hw H. unfold encoder_update_max_on. rewrite (update_same_on m w t n Hw H). reflexivity. Qed.

(* Decoder. *)
Lemma bytes_firstn k l : bytes l -> bytes (firstn k l).
Proof. intros H. rewrite <- (firstn_skipn k l) in H. apply bytes_app in H. tauto. Qed.
Lemma bytes_skipn k l : bytes l -> bytes (skipn k l).
Proof. intros H. rewrite <- (firstn_skipn k l) in H. apply bytes_app in H. tauto. Qed.
Lemma decode_on_same w m s src dst : 32 <= w -> bytes src -> decode_on w m s src dst = decode m s src dst.
Proof.
  intros Hw Hb. destruct (HuffCode.splits_total (bits_of_bytes src)) as (syms & rest & Hs).
  rewrite (decode_on_ok w m s src dst syms rest Hw Hb Hs).
  unfold decode. rewrite (decode_on_ok 64 m s src dst syms rest ltac:(discriminate) Hb Hs). reflexivity.
Qed.

Lemma decode_string_on_same w m s buf : 32 <= w -> bytes buf -> decode_string_on w m s buf = decode_string m s buf.
Proof.
  intros Hw Hb. unfold decode_string_on, decode_string. destruct buf as [|b0 buf]; [reflexivity|].
  destruct (decode_integer (b0 :: buf) 7) as [[len total]| | |] eqn:E; cbn [bind]; try reflexivity.
  destruct (decode_integer_u32 7 (b0 :: buf) len total p7 Hb E) as (Hl & _ & Ht).
  change (2 ^ 7 - 1 + 2 ^ 28) with 268435583 in Hl.
  assert (Hwr : wrap w len = len).
  { unfold wrap. apply N.mod_small. apply N.lt_le_trans with (2 ^ 32).
    - change (2 ^ 32) with 4294967296. lia.
    - apply N.pow_le_mono_r; [discriminate|exact Hw]. }
  rewrite !u_sub_ok by lia. cbn [bind]. rewrite Hwr.
  destruct (_ <? len); [reflexivity|]. destruct (N.land b0 128 =? 128); [|reflexivity].
  rewrite decode_on_same; [reflexivity|exact Hw|].
  apply bytes_firstn, bytes_skipn. exact Hb.
Qed.

Lemma decode_string_bound m s buf v n : bytes buf -> decode_string m s buf = Ok (v, n) ->
  5 * N.of_nat (List.length v) <= 8 * n /\ n <= N.of_nat (List.length buf).
Proof.
  intros Hb E. apply decode_string_iff in E as (h & bs & rest & -> & Hs & ->); [|exact Hb].
  split; [exact (string_wire_expand _ _ _ _ _ Hs)|]. rewrite app_length. lia.
Qed.

(* Room for everything a buffer of this length can insert. *)
Definition roomy (w M : N) (len : nat) : Prop := 5 * (2 * M + 92) + 8 * N.of_nat len < 5 * 2 ^ w.

Lemma decode_literal_on_same w m M d buf dst : 32 <= w -> wf (dtable d) -> bytes buf ->
  dmax (dtable d) <= M -> roomy w M (List.length buf) ->
  decode_literal_on w m d buf dst = decode_literal m d buf dst.
Proof.
  intros Hw Hwf Hb HM Hroom. unfold decode_literal_on, decode_literal. destruct buf as [|octet buf]; [reflexivity|].
  set (all := octet :: buf) in *.
  set (p := if N.land octet 64 =? 64 then 6 else 4).
  assert (Hp : prefix_ok p) by (unfold p; destruct (_ =? _); [exact p6|exact p4]).
  destruct (decode_integer all p) as [[index total]| | |] eqn:Ei; cbn [bindd]; try reflexivity.
  destruct (decode_integer_u32 p all index total Hp Hb Ei) as (_ & _ & Ht).
  assert (Hdr : forall k, bytes (drain all k)) by (intros k; apply bytes_skipn; exact Hb).
  rewrite (decode_string_on_same w m (dspeed d) (drain all total) Hw (Hdr _)).
  assert (Hfin : forall name total1, total1 <= N.of_nat (List.length all) ->
    5 * N.of_nat (List.length name) <= 5 * N.max 60 M + 8 * total1 ->
    (vt <-[(d, all, dst)] decode_string_on w m (dspeed d) (drain all total1) ;;
      let '(value, n) := vt in
      let total := total1 + n in
      if N.land octet 64 =? 64 then
        t' <-[(d, all, dst)] table_insert_on w m (dtable d) name value ;;
        ((set_table d t', drain all total, dst ++ [(name, value, 4)]), Ok total)
      else if N.land octet 16 =? 16 then
        ((d, drain all total, dst ++ [(name, value, 8)]), Ok total)
      else ((d, drain all total, dst ++ [(name, value, 0)]), Ok total)) =
    (vt <-[(d, all, dst)] decode_string m (dspeed d) (drain all total1) ;;
      let '(value, n) := vt in
      let total := total1 + n in
      if N.land octet 64 =? 64 then
        t' <-[(d, all, dst)] table_insert m (dtable d) name value ;;
        ((set_table d t', drain all total, dst ++ [(name, value, 4)]), Ok total)
      else if N.land octet 16 =? 16 then
        ((d, drain all total, dst ++ [(name, value, 8)]), Ok total)
      else ((d, drain all total, dst ++ [(name, value, 0)]), Ok total))).
  { intros name total1 Ht1 Hname. rewrite (decode_string_on_same w m (dspeed d) (drain all total1) Hw (Hdr _)).
    destruct (decode_string m (dspeed d) (drain all total1)) as [[value n]| | |] eqn:Ev; cbn [bindd]; try reflexivity.
    destruct (decode_string_bound m (dspeed d) _ _ _ (Hdr _) Ev) as [Hv Hn].
    assert (Hn' : total1 + n <= N.of_nat (List.length all)).
    { unfold drain in Hn. rewrite skipn_length in Hn. lia. }
    destruct (N.land octet 64 =? 64); [|reflexivity].
    rewrite (insert_same m w (dtable d) name value Hwf); [reflexivity|].
    destruct Hwf as (Hs & Hm & _). unfold roomy in Hroom. unfold line_size. cbn [fst snd]. lia. }
  destruct (index =? 0).
  - destruct (decode_string m (dspeed d) (drain all total)) as [[name n]| | |] eqn:En; cbn [bind bindd fst snd]; try reflexivity.
    destruct (decode_string_bound m (dspeed d) _ _ _ (Hdr _) En) as [Hv Hn].
    assert (Hn' : total + n <= N.of_nat (List.length all)).
    { unfold drain in Hn. rewrite skipn_length in Hn. lia. }
    apply Hfin; [exact Hn'|lia].
  - rewrite get_lookup. destruct (lookup (inner (dtable d)) index) as [e|] eqn:El; cbn [bindd]; [|reflexivity].
    apply Hfin; [exact Ht|]. apply lookup_size in El. destruct Hwf as (Hs & Hm & _). unfold line_size in El. lia.
Qed.

Lemma decode_one_on_same w m M d buf dst : 32 <= w -> wf (dtable d) -> bytes buf ->
  dmax (dtable d) <= M -> roomy w M (List.length buf) ->
  decode_one_on w m d buf dst = decode_one m d buf dst.
Proof.
  intros Hw Hwf Hb HM Hroom. unfold decode_one_on, decode_one. destruct buf as [|octet buf]; [reflexivity|].
  destruct (N.land octet 128 =? 128); [reflexivity|].
  rewrite (decode_literal_on_same w m M d (octet :: buf) dst Hw Hwf Hb HM Hroom).
  destruct (N.land octet 64 =? 64); [reflexivity|].
  destruct (N.land octet 32 =? 32); [|reflexivity].
  f_equal. unfold decoder_update_max_on, decoder_update_max.
  destruct (decode_integer (octet :: buf) 5) as [[n total]| | |]; cbn [bindd]; try reflexivity.
  destruct (dlimit d <? n); [reflexivity|]. rewrite (update_same_on m w _ n Hwf Hw). reflexivity.
Qed.

(* State after one representation. *)
Lemma decode_one_state m d b buf dst d' rest dst' n : wf (dtable d) -> bytes (b :: buf) ->
  decode_one m d (b :: buf) dst = ((d', rest, dst'), Ok n) ->
  wf (dtable d') /\ bytes rest /\ dlimit d' = dlimit d /\ dmax (dtable d') <= N.max (dmax (dtable d)) (dlimit d) /\
  (List.length rest <= List.length (b :: buf))%nat.
Proof.
  intros Hwf Hb E. destruct (hdecode_exact_total m 1 d (b :: buf) dst Hwf Hb)
    as (prs & r & x & hs & s & E1 & _ & _ & Hi & _ & Hwd & E2).
  unfold hdecode_exact in E2. cbn [decode_exact_loop] in E2. rewrite E in E2. cbn [binds] in E2.
  assert (E3 : (d', rest, dst') = (set_table d (conc x), r, dst ++ hs)).
  { destruct rest; cbn in E2; injection E2 as -> -> -> _; reflexivity. }
  injection E3 as -> -> ->. cbn [dtable dlimit set_table].
  split; [exact Hwd|]. split; [rewrite E1 in Hb; apply bytes_app in Hb; tauto|]. split; [reflexivity|].
  split; [apply interp_all_max in Hi; exact Hi|]. rewrite E1, app_length. lia.
Qed.

Lemma roomy_le w M a b : (a <= b)%nat -> roomy w M b -> roomy w M a.
Proof. unfold roomy. intros H1 H2. lia. Qed.

Lemma exact_loop_on_same w m M : 32 <= w -> forall cap d buf dst total, wf (dtable d) -> bytes buf ->
  dmax (dtable d) <= M -> dlimit d <= M -> roomy w M (List.length buf) ->
  decode_exact_loop_on w m cap d buf dst total = decode_exact_loop m cap d buf dst total.
Proof.
  intros Hw. induction cap as [|cap IH]; intros d buf dst total Hwf Hb HM HL Hroom; destruct buf as [|b buf]; try reflexivity.
  cbn [decode_exact_loop_on decode_exact_loop].
  rewrite (decode_one_on_same w m M d (b :: buf) dst Hw Hwf Hb HM Hroom).
  destruct (decode_one m d (b :: buf) dst) as [[[d' rest] dst'] [n|e| |]] eqn:E; cbn [binds]; try reflexivity.
  destruct (decode_one_state m d b buf dst d' rest dst' n Hwf Hb E) as (H1 & H2 & H3 & H4 & H5).
  apply IH; auto; [lia|rewrite H3; exact HL|]. exact (roomy_le _ _ _ _ H5 Hroom).
Qed.

Theorem hdecode_exact_on_same w m M cap d buf dst : 32 <= w -> wf (dtable d) -> bytes buf ->
  dmax (dtable d) <= M -> dlimit d <= M -> roomy w M (List.length buf) ->
  hdecode_exact_on w m cap d buf dst = hdecode_exact m cap d buf dst.
Proof. intros. eapply exact_loop_on_same; eassumption. Qed.

Theorem hdecode_on_same w m M d buf dst : 32 <= w -> wf (dtable d) -> bytes buf ->
  dmax (dtable d) <= M -> dlimit d <= M -> roomy w M (List.length buf) ->
  hdecode_on w m d buf dst = hdecode m d buf dst.
Proof.
  intros Hw. unfold hdecode_on, hdecode. generalize (List.length buf) at 2 3 as fuel. intros fuel. generalize 0 as total.
  intros total. revert d buf dst total.
  induction fuel as [|fuel IH]; intros d buf dst total Hwf Hb HM HL Hroom; destruct buf as [|b buf]; try reflexivity.
  cbn [decode_loop_on decode_loop].
  rewrite (hdecode_exact_on_same w m M 1 d (b :: buf) [] Hw Hwf Hb HM HL Hroom).
  destruct (hdecode_exact m 1 d (b :: buf) []) as [[[d' rest] data] [n|e| |]] eqn:E; try reflexivity.
  destruct (hdecode_exact_total m 1 d (b :: buf) [] Hwf Hb)
    as (prs & r & x & hs & s & E1 & _ & _ & Hi & _ & Hwd & E2).
  rewrite E in E2. injection E2 as -> -> _ _. cbn [dtable dlimit set_table].
  apply interp_all_max in Hi. change (max_size (abs (dtable d))) with (dmax (dtable d)) in Hi.
  apply IH; cbn [dtable dlimit set_table].
  - exact Hwd.
  - rewrite E1 in Hb. apply bytes_app in Hb. tauto.
  - change (dmax (conc x)) with (max_size x). lia.
  - exact HL.
  - refine (roomy_le _ _ _ _ _ Hroom). rewrite E1, app_length. lia.
Qed.

(* When the sum does not fit: a debug build panics; a release build keeps the entry
   and everything else, and records a size that is 2^w too small. *)
Theorem insert_overflow {E} w t n v : wf t -> line_size (n, v) < 2 ^ w -> 2 ^ w <= dsize t + line_size (n, v) ->
  dsize t < 2 ^ w ->
  @table_insert_on E w Debug t n v = Panic /\
  @table_insert_on E w Release t n v =
    Ok (mkDyn ((n, v) :: inner t) (dsize t + line_size (n, v) - 2 ^ w) (dmax t)).
Proof.
  intros (Hs & Hm & _) Hl Ho Hd. unfold table_insert_on.
  assert (Hsum : forall m, (l <- @u_add E m w (N.of_nat (List.length n)) (N.of_nat (List.length v)) ;; u_add m w l 32) =
    Ok (line_size (n, v))) by (intros m; apply entry_sum; exact Hl).
  split.
  - specialize (Hsum Debug).
    destruct (u_add Debug w (N.of_nat (List.length n)) (N.of_nat (List.length v))) as [x| | |]; cbn [bind] in *; try discriminate.
    rewrite Hsum. cbn [bind]. unfold u_add. apply N.ltb_ge in Ho. rewrite Ho. reflexivity.
  - specialize (Hsum Release).
    destruct (u_add Release w (N.of_nat (List.length n)) (N.of_nat (List.length v))) as [x| | |]; cbn [bind] in *; try discriminate.
    rewrite Hsum. cbn [bind]. unfold u_add. assert (Ho' := Ho). apply N.ltb_ge in Ho'. rewrite Ho'. cbn [overflow bind].
    assert (Em : (dsize t + line_size (n, v)) mod 2 ^ w = dsize t + line_size (n, v) - 2 ^ w).
    { symmetry. apply (N.mod_unique _ _ 1); lia. }
    rewrite Em. unfold consolidate_on. cbn [consolidate_loop_on dmax dsize].
    assert (H : dmax t <? dsize t + line_size (n, v) - 2 ^ w = false) by (apply N.ltb_ge; lia).
    rewrite H. reflexivity.
Qed.

(* Sessions. *)
Fixpoint run_ops_on (w : N) (m : mode) (t : table) (dst : list N) (ops : list op)
  : table * list N * list (outcome enc_error unit) :=
  match ops with
  | [] => (t, dst, [])
  | o :: ops' =>
      let '((t', dst'), r) :=
        match o with
        | Send f => hencode_on w m t f dst
        | Resize n => encoder_update_max_on w m t n dst
        end in
      let '(t'', dst'', rs) := run_ops_on w m t' dst' ops' in
      (t'', dst'', r :: rs)
  end.

(* Octets of names and values given to the call. *)
Definition op_len (o : op) : N :=
  match o with
  | Send (Indexed _) => 0
  | Send (IndexedName _ v _) => N.of_nat (List.length v)
  | Send (Literal n v _) => N.of_nat (List.length n) + N.of_nat (List.length v)
  | Resize _ => 0
  end.

Lemma hencode_dmax m t f dst : wf t -> input_ok f -> dmax (fst (fst (hencode m t f dst))) = dmax t.
Proof.
  intros Hw Hi. destruct (hencode_cases m t f dst Hw Hi) as [[Hn E]|(r & Hr & [[Hs H]|[Hs H]])].
  - rewrite E. reflexivity.
  - destruct H as (bs & d' & hs & E & Hint & _). rewrite E. cbn [fst].
    destruct (chosen_meaning 0 (abs t) f r Hr) as (n & v & _ & Hm). rewrite (Hint 0) in Hm. injection Hm as -> _.
    destruct (_ =? 4); reflexivity.
  - destruct H as (d' & hs & junk & E & _ & Hint & _). rewrite E. cbn [fst].
    destruct (chosen_meaning 0 (abs t) f r Hr) as (n & v & _ & Hm). rewrite (Hint 0) in Hm. injection Hm as -> _.
    destruct (_ =? 4); reflexivity.
Qed.

Theorem run_ops_on_same w m M : 32 <= w -> forall ops t dst, wf t -> dmax t <= M ->
  Forall op_typed ops -> Forall (resize_within M) ops -> Forall (fun o => 2 * M + 92 + op_len o < 2 ^ w) ops ->
  run_ops_on w m t dst ops = run_ops m t dst ops.
Proof.
  intros Hw. induction ops as [|o ops IH]; intros t dst Hwf HM Ht Hr Hl; [reflexivity|].
  inversion Ht as [|? ? T1 T2]; inversion Hr as [|? ? R1 R2]; inversion Hl as [|? ? L1 L2]; subst.
  cbn [run_ops_on run_ops].
  destruct o as [f|n]; cbn [op_typed resize_within] in *.
  - rewrite (hencode_on_same w m t f dst Hwf T1).
    + pose proof (hencode_wf m t f dst Hwf T1) as W. pose proof (hencode_dmax m t f dst Hwf T1) as D.
      destruct (hencode m t f dst) as [[t1 dst1] r]. cbn [fst] in *. rewrite (IH t1 dst1); auto. lia.
    + intros e He. destruct Hwf as (Hs & Hm & _). destruct f as [i|i v fl|n v fl]; cbn [field_of op_len] in *.
      * apply lookup_size in He. lia.
      * destruct (lookup (inner t) i) as [e0|] eqn:El; [|discriminate]. injection He as <-. apply lookup_size in El.
        unfold line_size in *. cbn [fst snd]. lia.
      * injection He as <-. unfold line_size. cbn [fst snd]. lia.
  - rewrite (encoder_update_on_same w m t n dst Hwf Hw).
    destruct (encoder_update_ok m t n dst Hwf T1) as (b & E2 & _ & _ & _ & W). rewrite E2. rewrite (IH _ (dst ++ b)); auto.
Qed.
