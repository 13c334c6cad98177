(* Decoders only append to their destination and do not look at it (C93).  The proofs follow
   the functions and assume nothing about the state or the octets. *)
From Verif Require Import Base HuffTables HuffModel HpackStatic HpackModel ProtosModel ProtosApi.
Open Scope list_scope.
Open Scope N_scope.

(* A function of the destination alone. *)
Definition appends {X E A} (F : list X -> list X * outcome E A) : Prop :=
  forall dst, F dst = (dst ++ fst (F []), snd (F [])).
(* A function that also returns another state. *)
Definition appends_st {S X E A} (F : list X -> (S * list X) * outcome E A) : Prop :=
  forall dst, F dst = ((fst (fst (F [])), dst ++ snd (fst (F []))), snd (F [])).

Lemma appends_ret {X E A} (o : outcome E A) : appends (fun dst : list X => (dst, o)).
Proof. intros dst. cbn. now rewrite app_nil_r. Qed.
Lemma appends_push {X E A} (x : list X) (o : outcome E A) : appends (fun dst : list X => (dst ++ x, o)).
Proof. intros dst. reflexivity. Qed.
Lemma appends_binds {X E A B} (F : list X -> list X * outcome E A) (K : list X -> A -> list X * outcome E B) :
  appends F -> (forall a, appends (fun dst => K dst a)) -> appends (fun dst => binds (F dst) K).
Proof.
  intros HF HK dst. rewrite (HF dst). destruct (F []) as [h [a|e| |]]; cbn [binds fst snd]; try reflexivity.
  rewrite (HK a (dst ++ h)), (HK a h). cbn [fst snd]. now rewrite app_assoc.
Qed.
Lemma appends_bindd {X E A B} (o : outcome E A) (K : list X -> A -> list X * outcome E B) :
  (forall a, appends (fun dst => K dst a)) -> appends (fun dst => bindd dst o (K dst)).
Proof. intros HK. destruct o as [a|e| |]; cbn [bindd]; try apply appends_ret. apply HK. Qed.

Lemma st_ret {S X E A} (s : S) (o : outcome E A) : appends_st (fun dst : list X => ((s, dst), o)).
Proof. intros dst. cbn. now rewrite app_nil_r. Qed.
Lemma st_push {S X E A} (s : S) (x : list X) (o : outcome E A) : appends_st (fun dst : list X => ((s, dst ++ x), o)).
Proof. intros dst. reflexivity. Qed.
Lemma st_binds {S X E A B} (F : list X -> (S * list X) * outcome E A) (K : S * list X -> A -> (S * list X) * outcome E B) :
  appends_st F -> (forall s a, appends_st (fun dst => K (s, dst) a)) -> appends_st (fun dst => binds (F dst) K).
Proof.
  intros HF HK dst. rewrite (HF dst). destruct (F []) as [[s h] [a|e| |]]; cbn [binds fst snd]; try reflexivity.
  rewrite (HK s a (dst ++ h)), (HK s a h). cbn [fst snd]. now rewrite app_assoc.
Qed.
Lemma st_bindd {S X E A B} (s : S) (o : outcome E A) (K : list X -> A -> (S * list X) * outcome E B) :
  (forall a, appends_st (fun dst => K dst a)) -> appends_st (fun dst => bindd (s, dst) o (K dst)).
Proof. intros HK. destruct o as [a|e| |]; cbn [bindd]; try apply st_ret. apply HK. Qed.

(* ------------------------------------------------------------------ *)
(* Huffman. *)
Lemma decode_next_appends w m r : appends (decode_next w m r).
Proof.
  unfold decode_next. do 3 (apply appends_bindd; intros ?).
  destruct a1 as [[next_id ascii] leftover]. do 8 (apply appends_bindd; intros ?).
  destruct ascii as [c|]; [destruct (c <? 256); [apply appends_push|apply appends_ret]|].
  destruct next_id; apply appends_ret.
Qed.
Lemma reader_loop_appends w m fuel : forall r, appends (reader_loop w m fuel r).
Proof.
  induction fuel as [|fuel IH]; intros r; cbn [reader_loop]; destruct (rbuf_size r <? rspeed r); try apply appends_ret.
  apply appends_binds; [apply decode_next_appends|intros r'; apply IH].
Qed.
Lemma reader_run_appends w m src : forall r, appends (reader_run w m r src).
Proof.
  induction src as [|byte src IH]; intros r; cbn [reader_run]; [apply appends_ret|].
  apply appends_binds; [|intros r'; apply IH]. unfold reader_decode. do 2 (apply appends_bindd; intros ?). apply reader_loop_appends.
Qed.
Lemma finalize_appends w m r : appends (finalize w m r).
Proof.
  unfold finalize. do 3 (apply appends_bindd; intros ?). apply appends_binds.
  - destruct (rspeed r <=? a1); [|apply appends_ret]. destruct (find_target _ _) as [[[n c] l]|e| |]; try apply appends_ret.
    destruct (a <=? l); [apply decode_next_appends|apply appends_ret].
  - intros r2. do 4 (apply appends_bindd; intros ?). destruct (existsb _ _); apply appends_ret.
Qed.
Theorem decode_on_appends w m s src : appends (decode_on w m s src).
Proof. apply appends_binds; [apply reader_run_appends|intros r; apply finalize_appends]. Qed.

Lemma encode_flush_appends m fuel : forall bits left, appends (encode_flush m fuel bits left).
Proof.
  induction fuel as [|fuel IH]; intros bits left; cbn [encode_flush]; destruct (left <=? 32); try apply appends_ret.
  cbv zeta. assert (P : forall x (G : list N -> list N * outcome huff_error (N * N)), appends G -> appends (fun dst => G (dst ++ x))).
  { intros x G HG dst. rewrite (HG (dst ++ x)), (HG ([] ++ x)). cbn [fst snd app]. now rewrite app_assoc. }
  apply (P _ (fun dst => bindd dst (u_shl m 64 bits 8) (fun bits' => bindd dst (u_add m 8 left 8) (fun left' => encode_flush m fuel bits' left' dst)))).
  do 2 (apply appends_bindd; intros ?). apply IH.
Qed.
Lemma encode_bytes_appends m src : forall bits left, appends (encode_bytes m src bits left).
Proof.
  induction src as [|b src IH]; intros bits left; cbn [encode_bytes]; [apply appends_ret|].
  destruct (nth_error ENCODE_TABLE (N.to_nat b)) as [[len code]|]; [|apply appends_ret].
  do 3 (apply appends_bindd; intros ?). apply appends_binds; [apply encode_flush_appends|intros bb; apply IH].
Qed.
Theorem encode_appends m src : appends (encode m src).
Proof.
  apply appends_binds; [apply encode_bytes_appends|]. intros [bits left]. destruct (left =? 40); [apply appends_ret|].
  do 2 (apply appends_bindd; intros ?). apply appends_push.
Qed.

(* ------------------------------------------------------------------ *)
(* HPACK. *)
Lemma decode_indexed_appends d buf : appends_st (decode_indexed d buf).
Proof.
  unfold decode_indexed. apply st_bindd. intros [index total].
  destruct (table_get (dtable d) index) as [[n v]|]; [apply st_push|apply st_ret].
Qed.
Lemma decode_literal_appends m d buf : appends_st (decode_literal m d buf).
Proof.
  unfold decode_literal. destruct buf as [|octet buf]; [apply st_ret|]. cbv zeta.
  apply st_bindd. intros [index total]. apply st_bindd. intros [name total']. apply st_bindd. intros [value n].
  destruct (N.land octet 64 =? 64); [apply st_bindd; intros t'; apply st_push|].
  destruct (N.land octet 16 =? 16); apply st_push.
Qed.
Lemma decoder_update_appends m d buf : appends_st (decoder_update_max m d buf).
Proof.
  unfold decoder_update_max. apply st_bindd. intros [n total]. destruct (dlimit d <? n); [apply st_ret|].
  apply st_bindd. intros t'. apply st_ret.
Qed.
Lemma decode_one_appends m d buf : appends_st (decode_one m d buf).
Proof.
  unfold decode_one. destruct buf as [|octet buf]; [apply st_ret|].
  destruct (N.land octet 128 =? 128); [apply decode_indexed_appends|].
  destruct (N.land octet 64 =? 64); [apply decode_literal_appends|].
  destruct (N.land octet 32 =? 32).
  - apply st_binds; [apply decoder_update_appends|]. intros s a. apply st_ret.
  - destruct (N.land octet 16 =? 16); apply decode_literal_appends.
Qed.
Lemma exact_loop_appends m limit : forall d buf total, appends_st (fun dst => decode_exact_loop m limit d buf dst total).
Proof.
  induction limit as [|limit IH]; intros d buf total; cbn [decode_exact_loop]; destruct buf as [|b buf]; try apply st_ret.
  apply st_binds; [apply decode_one_appends|]. intros [d' buf'] n. apply IH.
Qed.
Theorem hdecode_exact_appends m cap d buf : appends_st (hdecode_exact m cap d buf).
Proof. apply exact_loop_appends. Qed.
Lemma decode_loop_appends m fuel : forall d buf total, appends_st (fun dst => decode_loop m fuel d buf dst total).
Proof.
  induction fuel as [|fuel IH]; intros d buf total; cbn [decode_loop]; destruct buf as [|b buf]; try apply st_ret.
  destruct (hdecode_exact m 1 d (b :: buf) []) as [[[d' buf'] data] [n|e| |]]; try apply st_ret.
  intros dst. rewrite (IH d' buf' (total + n) (dst ++ data)), (IH d' buf' (total + n) ([] ++ data)). cbn [fst snd app].
  now rewrite app_assoc.
Qed.
Theorem hdecode_appends m d buf : appends_st (hdecode m d buf).
Proof. apply decode_loop_appends. Qed.

(* ------------------------------------------------------------------ *)
(* Protobuf. *)
Lemma step_key_appends m d buf : appends_st (fun dst => step_key m (d, buf, dst)).
Proof. cbn [step_key]. destruct (pdecode_key m buf) as [[[tag t] size]|[]| |]; apply st_ret. Qed.
Lemma step_extract_appends x d buf : appends_st (fun dst => step_extract x (d, buf, dst)).
Proof. cbn [step_extract]. destruct (x buf) as [[b size]|[]| |]; try apply st_ret. apply st_push. Qed.
Lemma step_len_appends m d buf : appends_st (fun dst => step_len m (d, buf, dst)).
Proof. cbn [step_len]. destruct (pdecode_varint m buf) as [[v size]|[]| |]; apply st_ret. Qed.
Lemma pstep_appends m d buf : appends_st (fun dst => pstep m (d, buf, dst)).
Proof.
  unfold pstep, step_ld. cbn [fst]. destruct (ptyp d); try apply step_extract_appends; [|apply step_key_appends].
  destruct (pld d); [apply step_extract_appends|apply step_len_appends].
Qed.
Lemma pdecode_loop_appends m fuel : forall d buf total, appends_st (fun dst => pdecode_loop m fuel (d, buf, dst) total).
Proof.
  induction fuel as [|fuel IH]; intros d buf total; cbn [pdecode_loop]; [apply st_ret|].
  apply st_binds; [apply pstep_appends|]. intros [d' buf'] n. destruct (n =? 0); [apply st_ret|apply IH].
Qed.
Theorem pdecode_appends m d buf : appends_st (pdecode m d buf).
Proof. apply pdecode_loop_appends. Qed.

(* ------------------------------------------------------------------ *)
(* The HPACK encoder. *)
Lemma appends_after {X E A} (x : list X) (G : list X -> list X * outcome E A) : appends G -> appends (fun dst => G (dst ++ x)).
Proof. intros HG dst. rewrite (HG (dst ++ x)), (HG ([] ++ x)). cbn [fst snd app]. now rewrite app_assoc. Qed.
Lemma integer_tail_appends fuel : forall v, appends (encode_integer_tail fuel v).
Proof.
  induction fuel as [|fuel IH]; intros v; cbn [encode_integer_tail]; destruct (128 <=? v); try apply appends_ret; try apply appends_push.
  apply (appends_after _ (encode_integer_tail fuel (N.shiftr v 7))). apply IH.
Qed.
Lemma encode_integer_appends v f p : appends (encode_integer v f p).
Proof.
  unfold encode_integer. destruct ((p <? 1) || (8 <? p))%bool; [apply appends_ret|]. cbv zeta. destruct (_ <? _); [apply appends_push|].
  apply (appends_after _ (encode_integer_tail 5 _)). apply integer_tail_appends.
Qed.
Lemma encode_string_appends m data h : appends (encode_string m data h).
Proof.
  unfold encode_string. apply appends_bindd. intros [flags bs]. cbv zeta. destruct (U32_MAX <? _); [apply appends_ret|].
  apply appends_binds; [apply encode_integer_appends|]. intros a. apply appends_push.
Qed.
Lemma with_table_appends {A} t (F : list N -> list N * outcome enc_error A) : appends F -> appends_st (fun dst => with_table t (F dst)).
Proof. intros HF dst. unfold with_table. rewrite (HF dst). destruct (F []) as [h o]. reflexivity. Qed.
Lemma encode_indexed_appends t i : appends_st (encode_indexed t i).
Proof. unfold encode_indexed. destruct (table_get t i); [apply with_table_appends, encode_integer_appends|apply st_ret]. Qed.
Lemma encode_indexed_name_appends m t i v f : appends_st (encode_indexed_name m t i v f).
Proof.
  unfold encode_indexed_name. destruct (table_get t i) as [e|]; [|apply st_ret]. cbv zeta. apply st_binds.
  - destruct (has_flag f 4); [apply st_bindd; intros t'|destruct (has_flag f 8)]; apply with_table_appends, encode_integer_appends.
  - intros t' a. cbn [fst snd]. apply with_table_appends, encode_string_appends.
Qed.
Lemma encode_literal_appends m t n v f : appends_st (encode_literal m t n v f).
Proof.
  unfold encode_literal. apply st_binds.
  - destruct (has_flag f 4); [|destruct (has_flag f 8); apply st_push].
    destruct (table_insert m t n v); cbn [bindd]; apply st_push.
  - intros t' a. cbn [fst snd]. apply st_binds; [apply with_table_appends, encode_string_appends|].
    intros t2 a2. cbn [fst snd]. apply with_table_appends, encode_string_appends.
Qed.
Theorem hencode_appends m t field : appends_st (hencode m t field).
Proof.
  unfold hencode. destruct field as [i|i v f|n v f]; [apply encode_indexed_appends|apply encode_indexed_name_appends|].
  destruct (has_flag f 16); [|apply encode_literal_appends]. apply st_bindd.
  intros [[i []]|]; [apply encode_indexed_appends|apply encode_indexed_name_appends|apply encode_literal_appends].
Qed.
Theorem encoder_update_appends m t size : appends_st (encoder_update_max m t size).
Proof. unfold encoder_update_max. apply st_bindd. intros t'. apply with_table_appends, encode_integer_appends. Qed.
