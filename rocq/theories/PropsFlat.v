(* C10, C51: `flatten` turns any prefix-free code into a matrix that represents its
   code tree (HuffTree.v). *)
From Verif Require Import Base HuffTables HuffAsset HuffSpec HuffModel HuffTree HuffCode HuffFlat HuffFlatPanic HuffFlatIff.
Open Scope list_scope.
Open Scope N_scope.

(* Code lengths are 1..=32 for 1, 2 and 4 bits and 1..=30 for 3 and 5 bits
   (whole chunks must fit in the u32 the code is shifted in); row numbers are u8.
   (Symbols are u16; a tree of 256 rows has at most 8192 codes.) *)
Theorem C10_flatten_represents : forall m s codings,
  let sp := N.to_nat (speed_bits s) in
  let cs := map (fun c => bits_of (N.to_nat (fst c)) (snd c)) codings in
  Forall (fun c => 1 <= fst c <= 32 - 32 mod speed_bits s /\ snd c < 2 ^ fst c) codings ->
  prefix_free_codes cs ->
  (forall nodes, NoDup nodes -> Forall (chunk_node sp cs) nodes -> (length nodes <= 256)%nat) ->
  exists t, flatten m codings s = Ok t /\ represents sp cs t.
Proof.
  intros m s codings sp cs Hf Hpf Hb. apply flatten_represents; auto.
  assert (H : (length codings <= 256 * 2 ^ sp)%nat).
  { assert (H0 : (0 < sp)%nat) by (unfold sp; destruct s; simpl; lia).
    assert (H5 : (sp <= 5)%nat) by (unfold sp; destruct s; simpl; lia).
    apply few_codes; auto.
    revert Hf. apply Forall_impl. tauto. }
  assert ((2 ^ sp <= 32)%nat) by (unfold sp; destruct s; simpl; lia). lia.
Qed.
Print Assumptions C10_flatten_represents.

(* The exact condition.  Cut the code [v], followed by [pad] zero bits, into chunks of
   [sp] bits; [i] counts them from the end.  `flatten` holds the padded code in a u32. *)
Definition chunk (sp pad v i : N) : N := (v * 2 ^ pad) / 2 ^ (i * sp) mod 2 ^ sp.
Definition chunk_u32 (sp pad v i : N) : N :=
  ((v * 2 ^ pad) mod 2 ^ 32) / 2 ^ ((i * sp) mod 32) mod 2 ^ sp.
Definition chunks_right (sp : N) (c : N * N) : Prop :=
  let n := (fst c + sp - 1) / sp in
  let pad := n * sp - fst c in
  forall i, i < n -> chunk_u32 sp pad (snd c) i = chunk sp pad (snd c) i.

Lemma chunks_right_kept sp c : (0 < sp)%nat -> 1 <= fst c ->
  (chunks_right (N.of_nat sp) c <-> kept sp c).
Proof.
  intros Hsp Hl. destruct c as [l v]. cbn [fst snd] in *.
  destruct (ceil_div_spec sp Hsp (N.to_nat l)) as (n & pad & Hn & Hpad & Hps & Hn1); [lia|].
  rewrite N2Nat.id in Hn. unfold ceil_div in Hn.
  unfold chunks_right, kept, ceil_div. cbn [fst snd]. rewrite Hn.
  replace (N.of_nat n * N.of_nat sp - l) with (N.of_nat pad) by nia.
  unfold chunk, chunk_u32, key, tkey. split.
  - intros H n' pad' i D1 D2 D3.
    assert (n' = n) by lia. subst n'. assert (pad' = pad) by lia. subst pad'.
    specialize (H (N.of_nat (n - 1 - i)) ltac:(lia)).
    rewrite !N.shiftr_div_pow2, N.shiftl_mul_pow2. exact H.
  - intros H i Hi. specialize (H n pad (n - 1 - N.to_nat i)%nat eq_refl Hpad ltac:(lia)).
    replace (n - 1 - (n - 1 - N.to_nat i))%nat with (N.to_nat i) in H by lia.
    rewrite N2Nat.id, !N.shiftr_div_pow2, N.shiftl_mul_pow2 in H. exact H.
Qed.

(* For every prefix-free code table, of any length and with codes of any length: *)
Theorem C10_flatten_represents_iff : forall m s codings,
  let sp := speed_bits s in
  let cs := map (fun c => bits_of (N.to_nat (fst c)) (snd c)) codings in
  Forall (fun c => snd c < 2 ^ fst c) codings ->
  prefix_free_codes cs ->
  ((exists t, flatten m codings s = Ok t /\ represents (N.to_nat sp) cs t) <->
   (forall c, In c codings ->
      1 <= fst c /\ (m = Debug -> (fst c - 1) / sp * sp < 32) /\ chunks_right sp c) /\
   (forall nodes, NoDup nodes -> Forall (chunk_node (N.to_nat sp) cs) nodes ->
      (length nodes <= 256)%nat)).
Proof.
  intros m s codings sp cs Hv Hpf.
  pose proof (flatten_iff m s codings Hv Hpf) as H. cbv zeta in H. fold sp cs in H.
  assert (Hsp : (0 < N.to_nat sp)%nat) by (unfold sp; destruct s; simpl; lia).
  assert (Hspn : N.of_nat (N.to_nat sp) = sp) by apply N2Nat.id.
  rewrite H, Forall_forall. clear H.
  split; intros [H1 H2]; (split; [|exact H2]); intros c Hc; specialize (H1 c Hc).
  - destruct H1 as (A & B & C). split; [exact A|]. split.
    + intros ->. destruct B as [B|B]; [discriminate B|exact B].
    + rewrite <- Hspn. apply chunks_right_kept; auto.
  - destruct H1 as (A & B & C). split; [exact A|]. split.
    + destruct m; [right; auto|now left].
    + apply chunks_right_kept; auto. now rewrite Hspn.
Qed.
Print Assumptions C10_flatten_represents_iff.

(* When the last chunk starts below bit 32 the chunks are right exactly when no set bit
   of the padded code is shifted out of the u32. *)
Theorem C10_chunks_right_iff : forall s c,
  let sp := speed_bits s in
  1 <= fst c -> snd c < 2 ^ fst c -> (fst c - 1) / sp * sp < 32 ->
  (chunks_right sp c <-> snd c * 2 ^ ((fst c + sp - 1) / sp * sp - fst c) < 2 ^ 32).
Proof.
  intros s [l v] sp Hl Hv Hs. cbn [fst snd] in *.
  assert (Hsp : (0 < N.to_nat sp)%nat) by (unfold sp; destruct s; simpl; lia).
  assert (Hsp5 : (N.to_nat sp <= 5)%nat) by (unfold sp; destruct s; simpl; lia).
  assert (Hspn : N.of_nat (N.to_nat sp) = sp) by apply N2Nat.id.
  pose proof (chunks_right_kept (N.to_nat sp) (l, v) Hsp Hl) as H1.
  pose proof (kept_iff (N.to_nat sp) Hsp Hsp5 l v Hl Hv) as H2.
  unfold ceil_div in H2. rewrite Hspn in H1, H2. specialize (H2 Hs). tauto.
Qed.
Print Assumptions C10_chunks_right_iff.

(* So with overflow checks the condition is plain arithmetic. *)
Theorem C10_flatten_represents_checked : forall s codings,
  let sp := speed_bits s in
  let cs := map (fun c => bits_of (N.to_nat (fst c)) (snd c)) codings in
  Forall (fun c => snd c < 2 ^ fst c) codings ->
  prefix_free_codes cs ->
  ((exists t, flatten Debug codings s = Ok t /\ represents (N.to_nat sp) cs t) <->
   (forall c, In c codings ->
      1 <= fst c /\ (fst c - 1) / sp * sp < 32 /\
      snd c * 2 ^ ((fst c + sp - 1) / sp * sp - fst c) < 2 ^ 32) /\
   (forall nodes, NoDup nodes -> Forall (chunk_node (N.to_nat sp) cs) nodes ->
      (length nodes <= 256)%nat)).
Proof.
  intros s codings sp cs Hv Hpf. unfold sp, cs. rewrite C10_flatten_represents_iff by assumption.
  rewrite Forall_forall in Hv. fold sp cs.
  split; intros [H1 H2]; (split; [|exact H2]); intros c Hc; specialize (H1 c Hc); specialize (Hv c Hc);
    destruct H1 as (A & B & C).
  - specialize (B eq_refl). split; [exact A|]. split; [exact B|].
    exact (proj1 (C10_chunks_right_iff s c A Hv B) C).
  - split; [exact A|]. split; [intros _; exact B|].
    exact (proj2 (C10_chunks_right_iff s c A Hv B) C).
Qed.
Print Assumptions C10_flatten_represents_checked.

(* The bit by bit walk has one result only. *)
Theorem C10_walk_unique : forall cs, prefix_free_codes cs ->
  forall p bits r1 r2, walk cs p bits r1 -> walk cs p bits r2 -> r1 = r2.
Proof.
  intros cs Hpf p bits r1 r2 H1. revert r2.
  induction H1 as [p b rest k Hk|p b rest r Hn Hw IH|p Hi|p Hi]; intros r2 H2;
    inversion H2; subst; auto; try contradiction.
  - f_equal. apply (Hpf _ _ (p ++ [b]) (p ++ [b])); auto using prefix_refl.
  - exfalso. match goal with H : ~ In _ _ |- _ => apply H end. eapply nth_error_In; eauto.
  - exfalso. apply Hn. eapply nth_error_In; eauto.
Qed.
Print Assumptions C10_walk_unique.

(* ------------------------------------------------------------------ *)
(* Checking the bound on the number of rows by computation. *)
Definition add_new (acc : list (list bool)) (p : list bool) : list (list bool) :=
  if existsb (beqb p) acc then acc else p :: acc.
Definition nodes_of (sp : nat) (cs : list (list bool)) : list (list bool) :=
  fold_left (fun acc c =>
               fold_left (fun acc k => add_new acc (firstn (k * sp) c))
                         (seq 0 (S (Nat.div (length c - 1) sp))) acc) cs [[]].

Lemma add_new_in acc p q : In q (add_new acc p) <-> q = p \/ In q acc.
Proof.
  unfold add_new. destruct (existsb (beqb p) acc) eqn:E.
  - apply existsb_exists in E. destruct E as (x & Hx & E). apply beqb_eq in E. subst x.
    split; [auto|]. intros [->|?]; auto.
  - simpl. intuition congruence.
Qed.

Lemma fold_new_in {B} (f : B -> list bool) l : forall acc q,
  In q (fold_left (fun acc k => add_new acc (f k)) l acc) <->
  In q acc \/ exists k, In k l /\ q = f k.
Proof.
  induction l as [|x l IH]; intros acc q; simpl.
  - split; [auto|]. intros [?|(k & [] & _)]; auto.
  - rewrite IH, add_new_in. split.
    + intros [[->|?]|(k & Hk & ->)]; eauto. 
    + intros [?|(k & [->|Hk] & ->)]; eauto.
Qed.

Lemma nodes_of_complete sp cs p : (0 < sp)%nat -> chunk_node sp cs p -> In p (nodes_of sp cs).
Proof.
  intros Hsp Hp. unfold nodes_of.
  assert (H : forall cs acc, (In p acc \/ (inner cs p /\ exists k, length p = (k * sp)%nat)) ->
    In p (fold_left (fun acc c =>
               fold_left (fun acc k => add_new acc (firstn (k * sp) c))
                         (seq 0 (S (Nat.div (length c - 1) sp))) acc) cs acc)).
  { clear cs Hp. induction cs as [|c cs IH]; intros acc Hp; cbn [fold_left].
    - destruct Hp as [Hp|[(c & [] & _) _]]. exact Hp.
    - apply IH. destruct Hp as [Hp|[(c' & [<-|Hc] & Hpc & Hl) [k Hk]]].
      + left. apply fold_new_in. auto.
      + left. apply fold_new_in. right. exists k. split.
        * apply in_seq. split; [lia|].
          assert (k <= (length c - 1) / sp)%nat by (apply Nat.div_le_lower_bound; lia). lia.
        * destruct Hpc as [x ->]. rewrite <- Hk, firstn_app, Nat.sub_diag, firstn_all, firstn_O.
          now rewrite app_nil_r.
      + right. split; [exists c'; auto|eauto]. }
  apply H. destruct Hp as [->|Hp]; [left; now left|right; exact Hp].
Qed.

Lemma nodes_bound sp cs : (0 < sp)%nat -> (length (nodes_of sp cs) <=? 256)%nat = true ->
  forall nodes, NoDup nodes -> Forall (chunk_node sp cs) nodes -> (length nodes <= 256)%nat.
Proof.
  intros Hsp Hb nodes Hn Hf. apply Nat.leb_le in Hb.
  transitivity (length (nodes_of sp cs)); [|exact Hb].
  apply NoDup_incl_length; [exact Hn|]. intros p Hp. apply nodes_of_complete; [exact Hsp|].
  rewrite Forall_forall in Hf. auto.
Qed.

Definition pf_check (cs : list (list bool)) : bool :=
  forallb (fun i => forallb (fun j =>
     negb (prefixb (nth i cs []) (nth j cs [])) || (i =? j)%nat) (seq 0 (length cs)))
     (seq 0 (length cs)).

Lemma pf_check_ok cs : pf_check cs = true -> prefix_free_codes cs.
Proof.
  intros H i j a b Hi Hj Hp. unfold pf_check in H. rewrite forallb_forall in H.
  assert (Hil : (i < length cs)%nat) by (apply nth_error_Some; congruence).
  assert (Hjl : (j < length cs)%nat) by (apply nth_error_Some; congruence).
  specialize (H i). rewrite forallb_forall in H.
  specialize (H ltac:(apply in_seq; lia) j ltac:(apply in_seq; lia)).
  rewrite (nth_error_nth _ _ _ Hi), (nth_error_nth _ _ _ Hj) in H.
  apply prefixb_spec in Hp. rewrite Hp in H. simpl in H. now apply Nat.eqb_eq.
Qed.

(* The code of the module's documentation, A=00 B=01 C=100 D=101 E=11, read two
   bits at a time. *)
Definition doc_code : list (N * N) := [(2, 0); (2, 1); (3, 4); (3, 5); (2, 3)].

Example C10_doc_code : forall m,
  exists t, flatten m doc_code TwoBits = Ok t /\
    represents 2 [[false; false]; [false; true]; [true; false; false];
                  [true; false; true]; [true; true]] t.
Proof.
  intros m. apply (C10_flatten_represents m TwoBits doc_code).
  - repeat constructor; simpl; try discriminate; reflexivity.
  - apply pf_check_ok. reflexivity.
  - apply nodes_bound; [simpl; lia|reflexivity].
Qed.

(* The matrix itself. *)
Example C10_doc_matrix : forall m,
  flatten m doc_code TwoBits =
  Ok [[(None, Some 0, 0); (None, Some 1, 0); (Some 1, None, 0); (None, Some 4, 0)];
      [(None, Some 2, 1); (None, Some 2, 1); (None, Some 3, 1); (None, Some 3, 1)]].
Proof. intros []; reflexivity. Qed.

(* The shipped code meets the hypotheses at every speed (at one bit with exactly
   256 rows), so each shipped matrix represents the RFC 7541 code. *)
Theorem C10_flatten_rfc : forall m s,
  exists t, flatten m ENCODE_TABLE s = Ok t /\
            represents (N.to_nat (speed_bits s)) rfc_codes t.
Proof.
  intros m s.
  replace rfc_codes with (map (fun c => bits_of (N.to_nat (fst c)) (snd c)) ENCODE_TABLE)
    by (vm_compute; reflexivity).
  apply C10_flatten_represents.
  - apply Forall_forall. intros c Hc.
    assert (H : forallb (fun c => (1 <=? fst c) && (fst c <=? 30) && (snd c <? 2 ^ fst c))
                        ENCODE_TABLE = true) by (vm_compute; reflexivity).
    rewrite forallb_forall in H. specialize (H c Hc).
    rewrite !andb_true_iff, !N.leb_le, N.ltb_lt in H. destruct H as [[H1 H2] H3].
    split; [|exact H3]. split; [exact H1|].
    destruct s; (etransitivity; [exact H2|]); discriminate.
  - apply pf_check_ok. vm_compute. reflexivity.
  - apply nodes_bound; [destruct s; simpl; lia|]. destruct s; vm_compute; reflexivity.
Qed.
Print Assumptions C10_flatten_rfc.

(* The bound of 256 rows is sharp: 254 codes of 8 bits and 4 codes of 9 bits, a
   complete prefix-free code whose tree has 257 inner nodes, get a one-bit matrix
   that does not represent the code (row 256 is numbered 0). *)
Definition wide_code : list (N * N) :=
  map (fun i => (8, N.of_nat i)) (seq 0 254) ++ [(9, 508); (9, 509); (9, 510); (9, 511)].

Example C10_bound_is_sharp : forall m,
  prefix_free_codes (map (fun c => bits_of (N.to_nat (fst c)) (snd c)) wide_code) /\
  Forall (fun c => 1 <= fst c <= 32 /\ snd c < 2 ^ fst c) wide_code /\
  length (nodes_of 1 (map (fun c => bits_of (N.to_nat (fst c)) (snd c)) wide_code)) = 257%nat /\
  exists t, flatten m wide_code OneBit = Ok t /\
    ~ represents 1 (map (fun c => bits_of (N.to_nat (fst c)) (snd c)) wide_code) t.
Proof.
  intros m. split; [apply pf_check_ok; vm_compute; reflexivity|]. split.
  { apply Forall_forall. intros c Hc.
    assert (H : forallb (fun c => (1 <=? fst c) && (fst c <=? 32) && (snd c <? 2 ^ fst c))
                        wide_code = true) by (vm_compute; reflexivity).
    rewrite forallb_forall in H. specialize (H c Hc).
    rewrite !andb_true_iff, !N.leb_le, N.ltb_lt in H. tauto. }
  split; [vm_compute; reflexivity|].
  assert (E : exists t, flatten m wide_code OneBit = Ok t /\
    exists row, nth_error t 0 = Some row /\ nth_error row 0 = Some (Some 1, Some 256, 0)).
  { destruct m; vm_compute; eexists; split; try reflexivity; eexists; split; reflexivity. }
  destruct E as (t & E & row & Hrow & Hcell). exists t. split; [exact E|].
  intros (rows & Hlen & Hroot & _ & _ & _ & H).
  destruct (H 0%nat [] [false] row Hroot Hrow eq_refl) as (c & r & Hc & _ & Hs).
  assert (Hc' : Some (Some 1, Some 256, 0) = Some c) by (rewrite <- Hcell; exact Hc).
  injection Hc' as <-. destruct r as [k u|p|]; cbn in Hs; try discriminate Hs.
  destruct Hs as (j & _ & Hs). discriminate Hs.
Qed.

(* At three bits per chunk a 31 bit code is padded to 33 bits: it works as long as its
   first bit is not set (and no 31 bit code can be used safely without looking at it);
   even 33 bits are fine, and so are 40 in a release build if the code is zero. *)
Example C10_long_codes :
  (forall m, exists t, flatten m [(31, 5); (31, 6)] ThreeBits = Ok t /\
     represents 3 [bits_of 31 5; bits_of 31 6] t) /\
  (forall m, ~ exists t, flatten m [(31, 2 ^ 30); (31, 6)] ThreeBits = Ok t /\
     represents 3 [bits_of 31 (2 ^ 30); bits_of 31 6] t) /\
  (forall m, exists t, flatten m [(33, 5)] ThreeBits = Ok t /\ represents 3 [bits_of 33 5] t) /\
  (exists t, flatten Release [(40, 0)] FourBits = Ok t /\ represents 4 [bits_of 40 0] t) /\
  (~ exists t, flatten Release [(40, 1)] FourBits = Ok t /\ represents 4 [bits_of 40 1] t).
Proof.
  assert (Hpf1 : prefix_free_codes [bits_of 31 5; bits_of 31 6]) by (apply pf_check_ok; reflexivity).
  assert (Hpf2 : prefix_free_codes [bits_of 31 (2 ^ 30); bits_of 31 6]) by (apply pf_check_ok; reflexivity).
  assert (Hpf3 : prefix_free_codes [bits_of 33 5]) by (apply pf_check_ok; reflexivity).
  assert (Hpf4 : prefix_free_codes [bits_of 40 0]) by (apply pf_check_ok; reflexivity).
  assert (Hpf5 : prefix_free_codes [bits_of 40 1]) by (apply pf_check_ok; reflexivity).
  refine (conj _ (conj _ (conj _ (conj _ _)))).
  - intros m. apply (C10_flatten_represents_iff m ThreeBits [(31, 5); (31, 6)]); [|exact Hpf1|].
    { repeat constructor. }
    split.
    + intros c [<-|[<-|[]]]; (split; [discriminate|]; split; [reflexivity|]);
        apply (C10_chunks_right_iff ThreeBits); try reflexivity; discriminate.
    + apply nodes_bound; [simpl; lia|reflexivity].
  - intros m. rewrite (C10_flatten_represents_iff m ThreeBits [(31, 2 ^ 30); (31, 6)]); [|repeat constructor|exact Hpf2].
    intros [H _]. destruct (H (31, 2 ^ 30) (or_introl eq_refl)) as (_ & _ & H1).
    apply (C10_chunks_right_iff ThreeBits) in H1; [discriminate H1|discriminate|reflexivity|reflexivity].
  - intros m. apply (C10_flatten_represents_iff m ThreeBits [(33, 5)]); [|exact Hpf3|].
    { repeat constructor. }
    split.
    + intros c [<-|[]]; (split; [discriminate|]; split; [reflexivity|]);
        apply (C10_chunks_right_iff ThreeBits); try reflexivity; discriminate.
    + apply nodes_bound; [simpl; lia|reflexivity].
  - apply (C10_flatten_represents_iff Release FourBits [(40, 0)]); [|exact Hpf4|].
    { repeat constructor. }
    split.
    + intros c [<-|[]]. split; [discriminate|]. split; [discriminate|].
      intros i _. unfold chunk_u32, chunk. cbn [snd]. rewrite N.mul_0_l.
      rewrite !N.div_0_l by (apply N.pow_nonzero; discriminate). reflexivity.
    + apply nodes_bound; [simpl; lia|reflexivity].
  - rewrite (C10_flatten_represents_iff Release FourBits [(40, 1)]); [|repeat constructor|exact Hpf5].
    intros [H _]. destruct (H (40, 1) (or_introl eq_refl)) as (_ & _ & H1).
    specialize (H1 8 ltac:(reflexivity)). vm_compute in H1. discriminate H1.
Qed.

(* ------------------------------------------------------------------ *)
(* C51: for every code table whatever (prefix-free or not, any number of codes),
   `flatten` either returns a matrix or panics, and it panics exactly when some
   code has length 0 or, with overflow checks on, when the last chunk of a code
   starts at bit 32 or later.  fst c : u8 is the code's length. *)
Theorem C51_flatten_panics_iff : forall m s codings,
  flatten m codings s = Panic <->
  exists c, In c codings /\
    (fst c = 0 \/ (m = Debug /\ 32 <= (fst c - 1) / speed_bits s * speed_bits s)).
Proof.
  intros m s codings. destruct (flatten_panic m s codings) as [[[t E] Hg]|[E Hb]].
  - rewrite E. split; [discriminate|]. intros (c & Hc & Hb). destruct (Hg c Hc) as [H1 H2].
    destruct Hb as [Hb|[Hm Hb]]; [contradiction|]. specialize (H2 Hm). lia.
  - tauto.
Qed.
Print Assumptions C51_flatten_panics_iff.

Theorem C51_flatten_total : forall m s codings,
  (exists t, flatten m codings s = Ok t) \/ flatten m codings s = Panic.
Proof.
  intros m s codings. destruct (flatten_panic m s codings) as [[E _]|[E _]]; auto.
Qed.
Print Assumptions C51_flatten_total.

(* An overlapping table with a 33 bit code: fine at 3 bits per chunk, panics at 4
   when checked, never in release builds. *)
Example C51_cases :
  (exists t, flatten Debug [(33, 5); (2, 0); (1, 0)] ThreeBits = Ok t) /\
  flatten Debug [(33, 5); (2, 0); (1, 0)] FourBits = Panic /\
  (exists t, flatten Release [(33, 5); (2, 0); (1, 0)] FourBits = Ok t) /\
  flatten Release [(1, 0); (0, 0)] OneBit = Panic.
Proof. vm_compute. repeat split; eexists; reflexivity. Qed.
