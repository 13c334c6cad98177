(* C109: whether waiting for more octets can help.
   Vocabulary: completable, unfinished_int, hopeful_string, hopeful (HpackHope.v), asks_for_more (PropsWait.v). *)
From Coq Require Import String Ascii.
From Verif Require Import Base HuffTables HuffModel HuffSpec HuffCode Leb HpackStatic HpackModel
  HpackSpec HpackApi HpackInt HpackStr HpackTab HpackDec HpackDerived HpackHope PropsWait.
Open Scope list_scope.
Open Scope N_scope.

(* C109 (full statement: when decode asks for more octets, there are octets with which it
   succeeds).  It holds exactly when what is left can still become a representation that
   the decoder accepts: an unfinished index is within the table so far, an unfinished
   size within the limit, and the codes of an unfinished Huffman string can be completed. *)
Theorem C109_exactly_partial : forall m d buf d1 rest hs o, wf (dtable d) -> bytes buf ->
  hdecode m d buf [] = ((d1, rest, hs), o) -> asks_for_more o ->
  (completable m d buf <-> hopeful (inner (dtable d1)) (dlimit d) rest).
Proof. exact hope_exact. Qed.
Print Assumptions C109_exactly_partial.

(* So the full statement holds while no Huffman string and no integer is under way: a cut
   in front of a string, or inside one that is not Huffman coded. *)
Theorem C109_strings_partial : forall m d buf d1 rest hs o, wf (dtable d) -> bytes buf ->
  hdecode m d buf [] = ((d1, rest, hs), o) -> asks_for_more o ->
  (exists k bi front lb len body, rest = bi ++ front ++ lb ++ body /\
     (exists i e, int_wire 5 (kind_prefix k) (kind_bits k) bi i /\ i <> 0 /\ lookup (inner (dtable d1)) i = Some e /\ front = [] \/
      int_wire 5 (kind_prefix k) (kind_bits k) bi 0 /\ (front = [] \/ exists h s, string_wire 5 code_padding h front s)) /\
     (lb ++ body = [] \/ int_wire 5 7 0 lb len /\ N.of_nat (List.length body) < len)) ->
  completable m d buf.
Proof.
  intros m d buf d1 rest hs o Hw Hb E A (k & bi & front & lb & len & body & -> & H1 & H2).
  apply (proj2 (hope_exact m d buf d1 _ hs o Hw Hb E A)).
  assert (Hs : hopeful_string (lb ++ body)).
  { destruct H2 as [->|[H2 H3]]; [constructor|exact (hs_plain lb len body H2 H3)]. }
  destruct H1 as (i & e & [(W & Hi & Hl & ->)|(W & [->|(h & s & Ws)])]).
  - exact (ho_value1 _ _ k bi i e _ W Hi Hl Hs).
  - exact (ho_name _ _ k bi _ W Hs).
  - exact (ho_value2 _ _ k bi h front s _ W Ws Hs).
Qed.
Print Assumptions C109_strings_partial.

(* ------------------------------------------------------------------ *)
(* Otherwise the decoder waits, up to C106's bound, for what cannot come. *)

Lemma hopeless m d buf d1 rest hs o : wf (dtable d) -> bytes buf -> hdecode m d buf [] = ((d1, rest, hs), o) ->
  asks_for_more o -> ~ hopeful (inner (dtable d1)) (dlimit d) rest -> ~ completable m d buf.
Proof. intros Hw Hb E A H C. apply H. exact (proj1 (hope_exact m d buf d1 rest hs o Hw Hb E A) C). Qed.

(* An unfinished integer's first octet is all ones below the prefix. *)
Lemma unfinished_hd p hi b t v : unfinished_int p hi (b :: t) v -> b = hi * 2 ^ p + (2 ^ p - 1).
Proof. intros (t' & r & E & _). injection E as -> _. reflexivity. Qed.

Lemma zero_octet k : int_wire 5 (kind_prefix k) (kind_bits k) [kind_bits k * 2 ^ kind_prefix k] 0.
Proof.
  pose proof (int_short 5 (kind_prefix k) (kind_bits k) 0) as H. rewrite N.add_0_r in H. apply H; [destruct k; reflexivity|lia].
Qed.

(* What a new name without indexing, the octet 0, leaves to be hoped for. *)
Lemma hopeful_zero l limit t : bytes t -> hopeful l limit (0 :: t) ->
  hopeful_string t \/ exists h bn n rest, t = bn ++ rest /\ string_wire 5 code_padding h bn n /\ hopeful_string rest.
Proof.
  intros Bt H. inversion H as [bs i Hi Hl E|bs i Hi Hl E|k bs i Hi Hl E|k bi i e rest Hi H0 He Hs E|k bi rest Hi Hs E|k bi hn bn n rest Hi Hn Hs E]; subst.
  - apply unfinished_hd in Hi. discriminate Hi.
  - apply unfinished_hd in Hi. discriminate Hi.
  - apply unfinished_hd in Hi. destruct k; discriminate Hi.
  - exfalso. destruct (head_wire _ _ _ _ _ rest (kp_ok k) Hi) as [_ Hh]. rewrite E in Hh.
    destruct k; try discriminate Hh.
    change (0 :: t) with ([0] ++ t) in E. destruct (int_wire_unique _ _ _ _ _ _ _ _ _ _ _ (kp_ok _) Hi (zero_octet WithoutIndexing) E) as (_ & -> & _).
    congruence.
  - left. destruct (head_wire _ _ _ _ _ rest (kp_ok k) Hi) as [_ Hh]. rewrite E in Hh. destruct k; try discriminate Hh.
    change (0 :: t) with ([0] ++ t) in E. destruct (int_wire_unique _ _ _ _ _ _ _ _ _ _ _ (kp_ok _) Hi (zero_octet WithoutIndexing) E) as (_ & _ & -> & _).
    exact Hs.
  - right. destruct (head_wire _ _ _ _ _ (bn ++ rest) (kp_ok k) Hi) as [_ Hh]. rewrite E in Hh. destruct k; try discriminate Hh.
    change (0 :: t) with ([0] ++ t) in E. destruct (int_wire_unique _ _ _ _ _ _ _ _ _ _ _ (kp_ok _) Hi (zero_octet WithoutIndexing) E) as (_ & _ & <- & _).
    exists hn, bn, n, rest. auto.
Qed.

(* After the end-of-string code nothing can follow. *)
Lemma after_eos syms tail k : splits (repeat true (30 + k)) syms tail -> syms = [] /\ tail = repeat true (30 + k).
Proof.
  intros (E & B & _). destruct syms as [|a syms]; [auto|exfalso]. inversion B; subst.
  assert (a = EOS) as ->; [|unfold is_byte, EOS in *; lia].
  apply (prefix_of_same a EOS (repeat true (30 + k))); [unfold is_byte in *; lia|unfold EOS; lia| |].
  - exists (codes syms ++ tail). rewrite E, app_assoc. reflexivity.
  - exists (repeat true k). rewrite code_eos, <- repeat_app. reflexivity.
Qed.

Theorem C109_huffman_refuted : forall m d, wf (dtable d) ->
  hdecode m d [0; 133; 255; 255; 255; 255] [] = ((d, [0; 133; 255; 255; 255; 255], []), Err DIntegerUnderflow) /\
  ~ completable m d [0; 133; 255; 255; 255; 255].
Proof.
  intros m d Hw. set (buf := [0; 133; 255; 255; 255; 255]).
  assert (Bb : bytes buf) by (repeat constructor; unfold is_byte; lia).
  assert (W5 : int_wire 5 7 1 [133] 5) by (refine (int_short 5 7 1 5 _ _); [reflexivity|lia]).
  assert (E : hdecode m d buf [] = ((d, buf, []), Err DIntegerUnderflow)).
  { pose proof (hdecode_ok m d [] buf (abs (dtable d)) [] (Fault Short) [] Hw Bb (Forall_nil _) eq_refl) as X.
    rewrite set_table_same in X by exact Hw. apply X. apply ends_fault.
    refine (rf_name _ WithoutIndexing [0] [133; 255; 255; 255; 255] Short (zero_octet WithoutIndexing) _).
    refine (sf_short 1 [133] 5 [255; 255; 255; 255] _ W5 _); [lia|reflexivity]. }
  split; [exact E|]. apply (hopeless m d buf d buf [] _ Hw Bb E (or_introl eq_refl)). intros H.
  apply hopeful_zero in H; [|repeat constructor; unfold is_byte; lia].
  destruct H as [H|(h & bn & n & rest & Et & Hs & _)].
  - inversion H as [|hi bs v Hh Hi|lb len body Hi Hl Et|lb len body syms tail a c Hi Hl Hs Ha Ec Hc Et].
    + apply unfinished_hd in Hi. assert (hi = 0 \/ hi = 1) as [->| ->] by lia; discriminate Hi.
    + change [133; 255; 255; 255; 255] with ([133] ++ [255; 255; 255; 255]) in Et.
      destruct (int_wire_unique 7 _ _ _ _ _ _ _ _ _ _ p7 Hi W5 Et) as (_ & _ & _ & C). discriminate C.
    + change [133; 255; 255; 255; 255] with ([133] ++ [255; 255; 255; 255]) in Et.
      destruct (int_wire_unique 7 _ _ _ _ _ _ _ _ _ _ p7 Hi W5 Et) as (-> & -> & -> & _).
      change (bits_of_bytes [255; 255; 255; 255]) with (repeat true (30 + 2)) in Hs.
      apply after_eos in Hs as [_ ->]. pose proof (f_equal (@List.length bool) Ec) as L. rewrite app_length, repeat_length in L.
      pose proof (code_length a ltac:(lia)). lia.
  - change [133; 255; 255; 255; 255] with ([133] ++ [255; 255; 255; 255]) in Et. symmetry in Et.
    destruct Hs as [lb s Hi|lb hb s r Hi _ _ _]; rewrite <- app_assoc in Et;
      destruct (int_wire_unique 7 _ _ _ _ _ _ _ _ _ _ p7 Hi W5 Et) as (_ & L & E' & C); [discriminate C|].
    pose proof (f_equal (@List.length N) E') as L2. rewrite app_length in L2. cbn in L2. lia.
Qed.
Print Assumptions C109_huffman_refuted.

Lemma least_two a b r : 128 <= a -> 128 <= b -> leb128 ([a; b] ++ [0]) r -> r = (a - 128) + 128 * (b - 128).
Proof.
  intros Ha Hb H.
  assert (leb128 ([a; b] ++ [0]) (a - 128 + 128 * (b - 128 + 128 * 0))) as H'.
  { replace ([a; b] ++ [0]) with ((128 + (a - 128)) :: (128 + (b - 128)) :: [0]) by (cbn; repeat f_equal; lia).
    destruct (N.lt_ge_cases (a - 128) 128) as [La|La]; destruct (N.lt_ge_cases (b - 128) 128) as [Lb|Lb];
      try (apply leb_more; [lia|]; apply leb_more; [lia|]; constructor; lia);
      exfalso; inversion H; subst; try lia; match goal with X : leb128 (_ :: _) _ |- _ => inversion X; subst; lia end. }
  rewrite (leb_fun _ _ _ H H'). lia.
Qed.

Theorem C109_index_refuted : forall m d, wf (dtable d) -> N.of_nat (List.length (inner (dtable d))) < 2 ^ 14 ->
  hdecode m d [255; 255; 255] [] = ((d, [255; 255; 255], []), Panic) /\ ~ completable m d [255; 255; 255].
Proof.
  intros m d Hw Hl. change (2 ^ 14) with 16384 in Hl. set (buf := [255; 255; 255]).
  assert (Bb : bytes buf) by (repeat constructor; unfold is_byte; lia).
  assert (E : hdecode m d buf [] = ((d, buf, []), Panic)).
  { pose proof (hdecode_ok m d [] buf (abs (dtable d)) [] (Fault Cut) [] Hw Bb (Forall_nil _) eq_refl) as X.
    rewrite set_table_same in X by exact Hw. apply X. apply ends_fault. apply rf_indexed. constructor.
    exists [255; 255]. split; [reflexivity|]. split; [repeat constructor; lia|cbn; lia]. }
  split; [exact E|]. apply (hopeless m d buf d buf [] _ Hw Bb E (or_intror eq_refl)). intros H.
  inversion H as [bs i Hi Hb Eb|bs i Hi Hb Eb|k bs i Hi Hb Eb|k bi i e rest Hi H0 He Hs Eb|k bi rest Hi Hs Eb|k bi hn bn n rest Hi Hn Hs Eb]; subst.
  - destruct Hi as (t & r & Et & _ & _ & Hr & ->). injection Et as <-. apply least_two in Hr; [|lia|lia]. subst r.
    change (2 ^ 7) with 128 in Hb. lia.
  - apply unfinished_hd in Hi. discriminate Hi.
  - apply unfinished_hd in Hi. destruct k; discriminate Hi.
  - destruct (head_wire _ _ _ _ _ rest (kp_ok k) Hi) as [_ Hh]. rewrite Eb in Hh. destruct k; discriminate Hh.
  - destruct (head_wire _ _ _ _ _ rest (kp_ok k) Hi) as [_ Hh]. rewrite Eb in Hh. destruct k; discriminate Hh.
  - destruct (head_wire _ _ _ _ _ (bn ++ rest) (kp_ok k) Hi) as [_ Hh]. rewrite Eb in Hh. destruct k; discriminate Hh.
Qed.
Print Assumptions C109_index_refuted.

Theorem C109_size_refuted : forall m d, wf (dtable d) -> dlimit d < 2 ^ 14 ->
  hdecode m d [63; 255; 255] [] = ((d, [63; 255; 255], []), Panic) /\ ~ completable m d [63; 255; 255].
Proof.
  intros m d Hw Hl. change (2 ^ 14) with 16384 in Hl. set (buf := [63; 255; 255]).
  assert (Bb : bytes buf) by (repeat constructor; unfold is_byte; lia).
  assert (E : hdecode m d buf [] = ((d, buf, []), Panic)).
  { pose proof (hdecode_ok m d [] buf (abs (dtable d)) [] (Fault Cut) [] Hw Bb (Forall_nil _) eq_refl) as X.
    rewrite set_table_same in X by exact Hw. apply X. apply ends_fault. apply rf_size. constructor.
    exists [255; 255]. split; [reflexivity|]. split; [repeat constructor; lia|cbn; lia]. }
  split; [exact E|]. apply (hopeless m d buf d buf [] _ Hw Bb E (or_intror eq_refl)). intros H.
  inversion H as [bs i Hi Hb Eb|bs i Hi Hb Eb|k bs i Hi Hb Eb|k bi i e rest Hi H0 He Hs Eb|k bi rest Hi Hs Eb|k bi hn bn n rest Hi Hn Hs Eb]; subst.
  - apply unfinished_hd in Hi. discriminate Hi.
  - destruct Hi as (t & r & Et & _ & _ & Hr & ->). injection Et as <-. apply least_two in Hr; [|lia|lia]. subst r.
    change (2 ^ 5) with 32 in Hb. lia.
  - apply unfinished_hd in Hi. destruct k; discriminate Hi.
  - destruct (head_wire _ _ _ _ _ rest (kp_ok k) Hi) as [_ Hh]. rewrite Eb in Hh. destruct k; discriminate Hh.
  - destruct (head_wire _ _ _ _ _ rest (kp_ok k) Hi) as [_ Hh]. rewrite Eb in Hh. destruct k; discriminate Hh.
  - destruct (head_wire _ _ _ _ _ (bn ++ rest) (kp_ok k) Hi) as [_ Hh]. rewrite Eb in Hh. destruct k; discriminate Hh.
Qed.
Print Assumptions C109_size_refuted.

(* A cut block, one of the octets that complete it, and a cut Huffman string that can be completed. *)
Example C109_case : forall m,
  snd (hdecode m decoder_default [130; 0; 1; 97; 2; 98] []) = Err DIntegerUnderflow /\
  completable m decoder_default [130; 0; 1; 97; 2; 98] /\
  snd (hdecode m decoder_default [0; 130; 254] []) = Err DIntegerUnderflow /\
  completable m decoder_default [0; 130; 254].
Proof.
  intros m. refine (conj _ (conj _ (conj _ _))).
  - destruct m; vm_compute; reflexivity.
  - exists [99]. do 3 eexists. split; [repeat constructor|]. destruct m; vm_compute; reflexivity.
  - destruct m; vm_compute; reflexivity.
  - exists [63; 0]. do 3 eexists. split; [repeat constructor|]. destruct m; vm_compute; reflexivity.
Qed.
