(* DecoderLit conversions: every payload, and the round trip of encoded values. *)
From Verif Require Import Base Leb ProtosModel ProtosSpec ProtosApi ProtosNum ProtosEnc.
Open Scope N_scope.

(* What a single-value decoder has to satisfy. *)
Record reader {A} (get : mode -> list N -> outcome pdec_error (A * N))
  (R : mode -> A -> list N -> Prop) (S L : mode -> list N -> Prop) : Prop := mkReader {
  rd_ok : forall m v bs rest, R m v bs -> get m (bs ++ rest) = Ok (v, N.of_nat (length bs));
  rd_ne : forall m v bs, R m v bs -> bs <> [];
  rd_short : forall m t, S m t -> get m t = Err PInputUnderflow;
  rd_long : forall m t, L m t -> get m t = Panic;
  rd_nil : forall m, S m [];
  rd_cases : forall m b, bytes b -> (exists v bs rest, b = bs ++ rest /\ R m v bs) \/ S m b \/ L m b }.

Lemma varint_reader {A} (f : N -> A) (R : mode -> A -> list N -> Prop) :
  (forall m v bs, R m v bs <-> exists n, reads m bs n /\ v = f n) ->
  reader (on_varint f) R short_varint overlong.
Proof.
  intros HR. constructor.
  - intros m v bs rest H. apply HR in H as (n & Hn & ->). unfold on_varint.
    now rewrite (pdecode_varint_value m bs n rest Hn).
  - intros m v bs H. apply HR in H as (n & Hn & ->). eapply reads_nonempty; eauto.
  - intros m t H. unfold on_varint. now rewrite pdecode_varint_short.
  - intros m t H. unfold on_varint. now rewrite pdecode_varint_long.
  - intros m. split; [constructor|simpl; lia].
  - intros m b Hb. destruct (varint_cases m b Hb) as [(bs & v & rest & -> & Hr)|[H|H]]; auto.
    left. exists (f v), bs, rest. split; [reflexivity|]. apply HR. eauto.
Qed.

Lemma fixed_reader {A} (k : nat) (f : N -> A) (R : mode -> A -> list N -> Prop) : k <> O ->
  (forall m v bs, R m v bs <-> exists n, little k n bs /\ v = f n) ->
  (forall m b, bytes b -> (k <= length b)%nat -> exists v bs rest, b = bs ++ rest /\ R m v bs) ->
  reader (on_fixed k f) R (short_fixed k) never.
Proof.
  intros Hk HR Hc. constructor.
  - intros m v bs rest H. apply HR in H as (n & (Hl & Hb & Hn) & ->). unfold on_fixed.
    rewrite app_length. replace (N.of_nat (length bs + length rest) <? N.of_nat k) with false by lia.
    rewrite firstn_app, Hl, Nat.sub_diag, firstn_O, app_nil_r, <- Hl, firstn_all, from_le_value. now rewrite Hn.
  - intros m v bs H. apply HR in H as (n & (Hl & _) & _). intros ->. simpl in Hl. lia.
  - intros m t H. unfold short_fixed in H. unfold on_fixed. now replace (N.of_nat (length t) <? N.of_nat k) with true by lia.
  - intros m t [].
  - intros m. unfold short_fixed. simpl. lia.
  - intros m b Hb. destruct (Nat.le_gt_cases k (length b)) as [H|H]; [left; auto | right; left; exact H].
Qed.

Lemma split_little k b : bytes b -> (k <= length b)%nat -> exists n bs rest, b = bs ++ rest /\ little k n bs.
Proof.
  intros Hb Hk. exists (le_value (firstn k b)), (firstn k b), (skipn k b).
  split; [now rewrite firstn_skipn|]. rewrite <- (firstn_skipn k b) in Hb. apply bytes_app in Hb as [Hb _].
  split; [rewrite firstn_length; lia|]. auto.
Qed.

Lemma reader_bool : reader get_bool r_bool short_varint overlong.
Proof.
  apply varint_reader. intros m v bs. unfold r_bool. split; intros (n & Hn & H); exists n; (split; [exact Hn|]).
  - destruct (N.eqb_spec n 0) as [E|E]; simpl; destruct v; auto; destruct H as [H1 H2].
    + now elim (H1 eq_refl).
    + now apply H2.
  - subst v. destruct (N.eqb_spec n 0) as [E|E]; simpl; split; congruence.
Qed.

Lemma trunc_iff w n v : 1 <= w -> truncated w (Z.of_N n) v <-> v = as_i w n.
Proof.
  intros Hw. split.
  - intros H. eapply truncated_unique; [exact Hw|exact H|now apply as_i_trunc].
  - intros ->. now apply as_i_trunc.
Qed.

Lemma reader_int w : 1 <= w -> reader (on_varint (as_i w)) (r_int w) short_varint overlong.
Proof.
  intros Hw. apply varint_reader. intros m v bs. unfold r_int.
  split; intros (n & Hn & H); exists n; (split; [exact Hn|]); now apply trunc_iff.
Qed.

Lemma reader_uint w : reader (on_varint (wrap w)) (r_uint w) short_varint overlong.
Proof. apply varint_reader. intros m v bs. reflexivity. Qed.

Lemma reader_uint64 : reader get_uint64 (r_uint 64) short_varint overlong.
Proof.
  apply varint_reader. intros m v bs. unfold r_uint.
  split; intros (n & Hn & H); exists n; (split; [exact Hn|]);
    pose proof (reads_bound m bs n Hn); rewrite ?N.mod_small in * by assumption; exact H.
Qed.

Lemma reader_sint w : 1 < w ->
  reader (on_varint (fun v => Z.lxor (as_i w (N.shiftr v 1)) (- as_i w (N.land v 1)))) (r_sint w) short_varint overlong.
Proof.
  intros Hw. apply varint_reader. intros m v bs. unfold r_sint.
  split; intros (n & Hn & H); exists n; (split; [exact Hn|]).
  - eapply truncated_unique; [|exact H|now apply unzigzag_decode]. lia.
  - subst v. now apply unzigzag_decode.
Qed.

Lemma reader_fixed k : k <> O -> reader (on_fixed k (fun v => v)) (r_fixed k) (short_fixed k) never.
Proof.
  intros Hk. apply fixed_reader; [exact Hk| |].
  - intros m v bs. unfold r_fixed. split; [intros H; eauto | intros (n & H & ->); exact H].
  - intros m b Hb Hl. destruct (split_little k b Hb Hl) as (n & bs & rest & -> & H). exists n, bs, rest. auto.
Qed.

Lemma reader_sfixed k w : k <> O -> 1 <= w -> reader (on_fixed k (as_i w)) (r_sfixed k w) (short_fixed k) never.
Proof.
  intros Hk Hw. apply fixed_reader; [exact Hk| |].
  - intros m v bs. unfold r_sfixed. split; intros (n & H & E); exists n; (split; [exact H|]); now apply trunc_iff.
  - intros m b Hb Hl. destruct (split_little k b Hb Hl) as (n & bs & rest & -> & H).
    exists (as_i w n), bs, rest. split; [reflexivity|]. exists n. split; [exact H|]. now apply trunc_iff.
Qed.

(* ------------------------------------------------------------------ *)
Section Reader.
  Context {A : Type} {get : mode -> list N -> outcome pdec_error (A * N)}
    {R : mode -> A -> list N -> Prop} {S L : mode -> list N -> Prop} (RD : reader get R S L).

  Lemma or_default_converts def m b : bytes b -> converts R S L def m b (or_default def (get m b)).
  Proof.
    intros Hb. repeat split.
    - intros v bs rest -> H. now rewrite (rd_ok _ _ _ _ RD m v bs rest H).
    - intros H. now rewrite (rd_short _ _ _ _ RD m b H).
    - intros H. now rewrite (rd_long _ _ _ _ RD m b H).
    - exact (rd_cases _ _ _ _ RD m b Hb).
  Qed.

  Lemma packed_snoc m vs a v bs : packed (R m) vs a -> R m v bs -> packed (R m) (vs ++ [v]) (a ++ bs).
  Proof.
    intros (parts & H & ->) Hv. exists (parts ++ [bs]). split.
    - apply Forall2_app; auto.
    - rewrite concat_app. simpl. now rewrite app_nil_r.
  Qed.

  Lemma slice_at {E} (a t : list N) : @slice_from E (a ++ t) (N.of_nat (length a)) = Ok t.
  Proof.
    unfold slice_from. rewrite app_length. replace (N.of_nat (length a) <=? N.of_nat (length a + length t)) with true by lia.
    rewrite Nat2N.id, skipn_app, Nat.sub_diag, skipn_all. reflexivity.
  Qed.

  (* The loop after the elements in a: the rest t decides. *)
  Lemma vec_loop_run m vs parts : Forall2 (R m) vs parts -> forall fuel pre t items,
    (length (concat parts) <= fuel)%nat ->
    exists fuel', (fuel - length (concat parts) <= fuel')%nat /\
      get_vec_loop (get m) fuel (pre ++ concat parts ++ t) (N.of_nat (length pre)) items =
      get_vec_loop (get m) fuel' ((pre ++ concat parts) ++ t) (N.of_nat (length (pre ++ concat parts))) (items ++ vs).
  Proof.
    induction 1 as [|v bs vs parts Hv H IH]; intros fuel pre t items Hf.
    - exists fuel. split; [simpl; lia|]. cbn [concat app]. now rewrite !app_nil_r.
    - pose proof (rd_ne _ _ _ _ RD m v bs Hv) as Hne.
      assert (Hl : (1 <= length bs)%nat) by (destruct bs; [congruence|simpl; lia]).
      cbn [concat] in *. rewrite app_length in Hf. destruct fuel as [|fuel]; [lia|].
      destruct (IH fuel (pre ++ bs) t (items ++ [v])) as (fuel' & Hf' & E); [lia|].
      exists fuel'. split; [rewrite app_length; lia|].
      cbn [get_vec_loop]. rewrite !app_length.
      replace ((N.of_nat (length pre) <? _) || _) with true.
      2:{ symmetry. apply orb_true_intro. left. apply N.ltb_lt. lia. }
      rewrite slice_at. cbn [bind]. rewrite <- app_assoc.
      rewrite (rd_ok _ _ _ _ RD m v bs (concat parts ++ t) Hv). cbn [bind fst snd].
      rewrite <- Nat2N.inj_add, <- (app_length pre bs).
      rewrite (app_assoc pre bs (concat parts ++ t)), E.
      now rewrite <- !app_assoc, !app_length.
  Qed.

  Lemma vec_whole m vs b : packed (R m) vs b -> b <> [] ->
    get_vec (get m) b = Ok (vs, N.of_nat (length b)).
  Proof.
    intros (parts & H & ->) Hne. unfold get_vec.
    destruct (vec_loop_run m vs parts H (length (concat parts) + 1) [] [] []) as (fuel' & Hf & E); [lia|].
    cbn [app length] in E. rewrite !app_nil_r in E. change (N.of_nat 0) with 0 in E. rewrite E.
    destruct (concat parts) as [|c l] eqn:Ec; [congruence|].
    destruct fuel'; cbn [get_vec_loop]; rewrite N.ltb_irrefl;
      replace (N.of_nat (length (c :: l)) =? 0) with false by (cbn [length]; lia); reflexivity.
  Qed.

  Lemma vec_tail m vs a t : packed (R m) vs a -> t <> [] \/ a = [] ->
    get_vec (get m) (a ++ t) =
    match get m t with
    | Ok x => get_vec (get m) (a ++ t)
    | Err e => Err e | Panic => Panic | OutOfFuel => OutOfFuel
    end.
  Proof.
    intros (parts & H & ->) Ht. unfold get_vec.
    destruct (vec_loop_run m vs parts H (length (concat parts ++ t) + 1) [] t []) as (fuel' & Hf & E); [rewrite app_length; lia|].
    cbn [app length] in E. change (N.of_nat 0) with 0 in E. rewrite E. clear E.
    destruct fuel' as [|fuel']; [rewrite app_length in Hf; lia|]. cbn [get_vec_loop].
    replace ((N.of_nat (length (concat parts)) <? N.of_nat (length (concat parts ++ t))) || (N.of_nat (length (concat parts ++ t)) =? 0)) with true.
    2:{ symmetry. apply orb_true_intro. rewrite app_length. destruct t as [|c t].
        - right. destruct Ht as [Ht|Ht]; [congruence|]. rewrite Ht. reflexivity.
        - left. apply N.ltb_lt. cbn [length]. lia. }
    rewrite slice_at. cbn [bind]. destruct (get m t); reflexivity.
  Qed.

  Lemma vec_cases m n b : (length b <= n)%nat -> bytes b ->
    exists vs a t, b = a ++ t /\ packed (R m) vs a /\ (t = [] \/ (t <> [] /\ S m t) \/ L m t).
  Proof.
    revert b. induction n as [|n IH]; intros b Hn Hb.
    - destruct b; [|simpl in Hn; lia]. exists [], [], []. split; [reflexivity|]. split; [|auto].
      exists []. split; [constructor|reflexivity].
    - destruct b as [|c b].
      { exists [], [], []. split; [reflexivity|]. split; [|auto]. exists []. split; [constructor|reflexivity]. }
      destruct (rd_cases _ _ _ _ RD m _ Hb) as [(v & bs & rest & E & Hv)|Hc].
      + pose proof (rd_ne _ _ _ _ RD m v bs Hv) as Hne. rewrite E in Hb, Hn. apply bytes_app in Hb as [_ Hr].
        destruct (IH rest) as (vs & a & t & -> & (parts & Hp & ->) & Ht).
        { rewrite app_length in Hn. destruct bs; [congruence|simpl in Hn; lia]. }
        { exact Hr. }
        exists (v :: vs), (bs ++ concat parts), t. split; [rewrite E; now rewrite app_assoc|]. split; [|exact Ht].
        exists (bs :: parts). split; [now constructor|reflexivity].
      + exists [], [], (c :: b). split; [reflexivity|]. split; [exists []; split; [constructor|reflexivity]|].
        right. destruct Hc; [left; split; [discriminate|assumption] | now right].
  Qed.

  Lemma or_default_all m b : bytes b -> converts_all R S L m b (or_default [] (get_vec (get m) b)).
  Proof.
    intros Hb. repeat split.
    - intros vs Hp. destruct b as [|c b].
      + assert (vs = []) as ->.
        { destruct Hp as (parts & H & E). destruct H as [|v bs vs parts Hv H]; [reflexivity|].
          apply (rd_ne _ _ _ _ RD) in Hv. cbn [concat] in E. destruct bs; [congruence|discriminate]. }
        pose proof (vec_tail m [] [] []) as E. cbn [app] in E.
        rewrite (rd_short _ _ _ _ RD m [] (rd_nil _ _ _ _ RD m)) in E.
        rewrite E; [reflexivity | exact Hp | now right].
      + now rewrite (vec_whole m vs _ Hp).
    - intros vs a t -> Hp Ht HS. rewrite (vec_tail m vs a t Hp (or_introl Ht)).
      now rewrite (rd_short _ _ _ _ RD m t HS).
    - intros vs a t -> Hp HL. destruct t as [|c t].
      + pose proof (rd_long _ _ _ _ RD m [] HL) as E1.
        rewrite (rd_short _ _ _ _ RD m [] (rd_nil _ _ _ _ RD m)) in E1. discriminate.
      + rewrite (vec_tail m vs a (c :: t) Hp) by (left; discriminate).
        now rewrite (rd_long _ _ _ _ RD m _ HL).
    - exact (vec_cases m (length b) b (le_n _) Hb).
  Qed.

  (* Reading back what an encoder wrote. *)
  Lemma read_one def m v bs : R m v bs -> or_default def (get m bs) = Ok v.
  Proof.
    intros H. rewrite <- (app_nil_r bs). now rewrite (rd_ok _ _ _ _ RD m v bs [] H).
  Qed.
  Lemma read_all m (W : A -> list N -> Prop) vs p : (forall v bs, In v vs -> W v bs -> R m v bs) ->
    packed W vs p -> or_default [] (get_vec (get m) p) = Ok vs.
  Proof.
    intros HW (parts & H & ->).
    assert (HR : Forall2 (R m) vs parts).
    { clear - HW H. induction H as [|v bs vs parts Hv H IH]; constructor.
      - apply HW; [now left|exact Hv].
      - apply IH. intros. apply HW; [now right|assumption]. }
    clear H. destruct (concat parts) as [|c l] eqn:E.
    - assert (vs = []) as ->.
      { destruct HR as [|v bs vs parts Hv HR]; [reflexivity|]. apply (rd_ne _ _ _ _ RD) in Hv.
        cbn [concat] in E. destruct bs; [congruence|discriminate]. }
      pose proof (vec_tail m [] [] []) as E'. cbn [app] in E'.
      rewrite (rd_short _ _ _ _ RD m [] (rd_nil _ _ _ _ RD m)) in E'.
      rewrite E'; [reflexivity | exists []; split; [constructor|reflexivity] | now right].
    - rewrite <- E. rewrite (vec_whole m vs (concat parts)).
      + reflexivity.
      + now exists parts.
      + congruence.
  Qed.
End Reader.

(* ------------------------------------------------------------------ *)
(* What the encoder writes is what the decoder reads. *)
Lemma rw_bool m v bs : w_bool v bs -> r_bool m v bs.
Proof.
  intros H. exists (if v then 1 else 0). split; [|destruct v; split; congruence].
  apply reads_shortest; [exact H | destruct v; reflexivity].
Qed.
Lemma in_i_32_64 v : in_i 32 v -> in_i 64 v.
Proof. unfold in_i. change (2 ^ (Z.of_N 32 - 1))%Z with 2147483648%Z. change (2 ^ (Z.of_N 64 - 1))%Z with 9223372036854775808%Z. lia. Qed.
Lemma rw_int64 m v bs : in_i 64 v -> w_int v bs -> r_int 64 m v bs.
Proof.
  intros Hi (n & Ht & Hs). exists n. split; [apply reads_shortest; [exact Hs|apply Ht]|].
  split; [exact Hi|]. destruct Ht as (_ & k & ->). exists (- k)%Z. lia.
Qed.
Lemma rw_int32 m v bs : in_i 32 v -> w_int v bs -> r_int 32 m v bs.
Proof.
  intros Hi (n & Ht & Hs). exists n. split; [apply reads_shortest; [exact Hs|apply Ht]|].
  split; [exact Hi|]. destruct Ht as (_ & k & ->). exists (- k * 2 ^ 32)%Z. change (Z.of_N 64) with (32 + 32)%Z.
  rewrite Z.pow_add_r by lia. change (Z.of_N 32) with 32%Z. ring.
Qed.
Lemma rw_uint64 m v bs : u64_ok v -> w_uint v bs -> r_uint 64 m v bs.
Proof. intros Hv H. exists v. split; [now apply reads_shortest|]. symmetry. now apply N.mod_small. Qed.
Lemma rw_uint32 m v bs : u32_ok v -> w_uint v bs -> r_uint 32 m v bs.
Proof. intros Hv H. exists v. split; [apply reads_shortest; [exact H|now apply u32_64]|]. symmetry. now apply N.mod_small. Qed.
Lemma rw_sint w m v bs : 1 <= w <= 64 -> in_i w v -> w_sint v bs -> r_sint w m v bs.
Proof.
  intros Hw Hi H. exists (zigzag v). split.
  - apply reads_shortest; [exact H|]. eapply N.lt_le_trans; [apply (zigzag_bound w); [lia|exact Hi]|].
    apply N.pow_le_mono_r; lia.
  - rewrite unzigzag_zigzag. split; [exact Hi|]. exists 0%Z. lia.
Qed.
Lemma rw_sfixed k w m v bs : in_i w v -> w_sfixed k w v bs -> r_sfixed k w m v bs.
Proof.
  intros Hi (n & (_ & j & ->) & H). exists n. split; [exact H|]. split; [exact Hi|]. exists (- j)%Z. lia.
Qed.

(* Readers under the names used by the model. *)
Definition rd_int32 : reader get_int32 _ _ _ := reader_int 32 ltac:(lia).
Definition rd_int64 : reader get_int64 _ _ _ := reader_int 64 ltac:(lia).
Definition rd_uint32 : reader get_uint32 _ _ _ := reader_uint 32.
Definition rd_sint32 : reader get_sint32 _ _ _ := reader_sint 32 ltac:(lia).
Definition rd_sint64 : reader get_sint64 _ _ _ := reader_sint 64 ltac:(lia).
Definition rd_fixed32 : reader get_fixed32 _ _ _ := reader_fixed 4 ltac:(lia).
Definition rd_fixed64 : reader get_fixed64 _ _ _ := reader_fixed 8 ltac:(lia).
Definition rd_float : reader get_float _ _ _ := reader_fixed 4 ltac:(lia).
Definition rd_double : reader get_double _ _ _ := reader_fixed 8 ltac:(lia).
Definition rd_sfixed32 : reader get_sfixed32 _ _ _ := reader_sfixed 4 32 ltac:(lia) ltac:(lia).
Definition rd_sfixed64 : reader get_sfixed64 _ _ _ := reader_sfixed 8 64 ltac:(lia) ltac:(lia).

(* C39, C40 *)
Theorem reads_back_all m l t p : lit_ok l -> lit_wire l t p -> reads_back m l p.
Proof.
  intros Hl Hw. destruct l; cbn [lit_ok lit_wire reads_back] in *; destruct Hw as [-> Hw];
    rewrite ?Forall_forall in Hl;
    cbn [to_bool to_bool_vec to_i32 to_i32_vec to_i64 to_i64_vec to_u32 to_u32_vec to_u64 to_u64_vec
         to_f32 to_f32_vec to_f64 to_f64_vec to_u8_vec].
  - exact Hw.
  - apply (read_one reader_bool). now apply rw_bool.
  - refine (read_all reader_bool m _ _ _ _ Hw). intros; now apply rw_bool.
  - apply (read_one rd_int32). now apply rw_int32.
  - refine (read_all rd_int32 m _ _ _ _ Hw). intros; apply rw_int32; auto.
  - apply (read_one rd_int64). now apply rw_int64.
  - refine (read_all rd_int64 m _ _ _ _ Hw). intros; apply rw_int64; auto.
  - apply (read_one rd_uint32). now apply rw_uint32.
  - refine (read_all rd_uint32 m _ _ _ _ Hw). intros; apply rw_uint32; auto.
  - apply (read_one reader_uint64). now apply rw_uint64.
  - refine (read_all reader_uint64 m _ _ _ _ Hw). intros; apply rw_uint64; auto.
  - apply (read_one rd_float). exact Hw.
  - refine (read_all rd_float m _ _ _ _ Hw). auto.
  - apply (read_one rd_double). exact Hw.
  - refine (read_all rd_double m _ _ _ _ Hw). auto.
  - apply (read_one rd_sint32). apply rw_sint; auto; lia.
  - refine (read_all rd_sint32 m _ _ _ _ Hw). intros; apply rw_sint; auto; lia.
  - apply (read_one rd_sint64). apply rw_sint; auto; lia.
  - refine (read_all rd_sint64 m _ _ _ _ Hw). intros; apply rw_sint; auto; lia.
  - apply (read_one rd_fixed32). exact Hw.
  - refine (read_all rd_fixed32 m _ _ _ _ Hw). auto.
  - apply (read_one rd_fixed64). exact Hw.
  - refine (read_all rd_fixed64 m _ _ _ _ Hw). auto.
  - apply (read_one rd_sfixed32). now apply rw_sfixed.
  - refine (read_all rd_sfixed32 m _ _ _ _ Hw). intros; apply rw_sfixed; auto.
  - apply (read_one rd_sfixed64). now apply rw_sfixed.
  - refine (read_all rd_sfixed64 m _ _ _ _ Hw). intros; apply rw_sfixed; auto.
Qed.
