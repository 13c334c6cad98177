(* Which unfinished header blocks can be completed. *)
From Verif Require Import Base HuffTables HuffModel HuffSpec HuffCode HuffDecProofs HuffDerived HuffMore Leb HpackStatic HpackModel
  HpackSpec HpackApi HpackInt HpackStr HpackTab HpackDec HpackEnc HpackDerived HpackMore HpackUnique.
Open Scope N_scope.

(* ------------------------------------------------------------------ *)
(* Specification. *)

(* Some octets, sent next, make decode succeed. *)
Definition completable (m : mode) (d : decoder) (buf : list N) : Prop :=
  exists more d' hs n, bytes more /\ hdecode m d (buf ++ more) [] = ((d', [], hs), Ok n).

(* The octets bs are an unfinished integer; v is the least number it can become. *)
Definition unfinished_int (p hi : N) (bs : list N) (v : N) : Prop :=
  exists t r, bs = (hi * 2 ^ p + (2 ^ p - 1)) :: t /\ continued t /\ (List.length t <= 3)%nat /\
    leb128 (t ++ [0]) r /\ v = 2 ^ p - 1 + r.

(* A string that has not arrived completely and can still become a good one: nothing of it
   has arrived; its length is unfinished; it is plain; or it is Huffman coded and the bits
   after the last whole symbol are the beginning of a code that fits into the octets to come. *)
Inductive hopeful_string : list N -> Prop :=
| hs_nothing : hopeful_string []
| hs_length hi bs v : hi <= 1 -> unfinished_int 7 hi bs v -> hopeful_string bs
| hs_plain lb len body : int_wire 5 7 0 lb len -> N.of_nat (List.length body) < len -> hopeful_string (lb ++ body)
| hs_huffman lb len body syms tail a c : int_wire 5 7 1 lb len -> N.of_nat (List.length body) < len ->
    splits (bits_of_bytes body) syms tail -> a < 256 -> code a = tail ++ c ->
    N.of_nat (List.length c) <= 8 * (len - N.of_nat (List.length body)) ->
    hopeful_string (lb ++ body).

(* The same for a representation: an unfinished index must not be above the table already, nor
   an unfinished size above the limit. *)
Inductive hopeful (l : list field_line) (limit : N) : list N -> Prop :=
| ho_indexed bs i : unfinished_int 7 1 bs i -> i <= 61 + N.of_nat (List.length l) -> hopeful l limit bs
| ho_size bs n : unfinished_int 5 1 bs n -> n <= limit -> hopeful l limit bs
| ho_name_index k bs i : unfinished_int (kind_prefix k) (kind_bits k) bs i -> i <= 61 + N.of_nat (List.length l) ->
    hopeful l limit bs
| ho_value1 k bi i e rest : int_wire 5 (kind_prefix k) (kind_bits k) bi i -> i <> 0 -> lookup l i = Some e ->
    hopeful_string rest -> hopeful l limit (bi ++ rest)
| ho_name k bi rest : int_wire 5 (kind_prefix k) (kind_bits k) bi 0 -> hopeful_string rest -> hopeful l limit (bi ++ rest)
| ho_value2 k bi hn bn n rest : int_wire 5 (kind_prefix k) (kind_bits k) bi 0 ->
    string_wire 5 code_padding hn bn n -> hopeful_string rest -> hopeful l limit (bi ++ bn ++ rest).

(* ------------------------------------------------------------------ *)
(* Bits to octets. *)
Lemma bits_byte l : List.length l = 8%nat -> bits_of 8 (val l) = l.
Proof. apply bits_of_val_n. Qed.

Lemma val_byte l : List.length l = 8%nat -> val l < 256.
Proof. intros H. pose proof (val_lt l) as B. rewrite H in B. exact B. Qed.

Lemma bits_to_bytes n : forall l, List.length l = (8 * n)%nat -> exists h, bytes h /\ bits_of_bytes h = l /\ List.length h = n.
Proof.
  induction n as [|n IH]; intros l H.
  - destruct l; [|discriminate H]. exists []. repeat split. constructor.
  - assert (L1 : List.length (firstn 8 l) = 8%nat) by (apply firstn_length_le; lia).
    destruct (IH (skipn 8 l)) as (h & Hb & Hh & Hl); [rewrite skipn_length; lia|].
    exists (val (firstn 8 l) :: h). split; [constructor; [apply val_byte; exact L1|exact Hb]|].
    split; [|cbn; congruence]. unfold bits_of_bytes in *. cbn [flat_map]. rewrite Hh, bits_byte by exact L1.
    apply firstn_skipn.
Qed.

(* Any number of bits can be filled with codes and padding. *)
Lemma fill k : exists syms pad, bytes syms /\ (List.length pad <= 7)%nat /\ pad = repeat true (List.length pad) /\
  List.length (codes syms ++ pad) = k.
Proof.
  exists (repeat 48 (k / 5)), (repeat true (k mod 5)). pose proof (Nat.mod_upper_bound k 5 ltac:(lia)).
  rewrite repeat_length.
  split; [apply Forall_forall; intros x Hx; apply repeat_spec in Hx; subst x; unfold is_byte; lia|].
  split; [lia|]. split; [reflexivity|]. rewrite app_length, repeat_length.
  assert (E : forall n, List.length (codes (repeat 48 n)) = (5 * n)%nat).
  { induction n as [|n IHn]; [reflexivity|]. cbn [repeat]. unfold codes in *. cbn [flat_map]. rewrite app_length, IHn.
    change (List.length (code 48)) with 5%nat. lia. }
  rewrite E. pose proof (Nat.div_mod k 5). lia.
Qed.

Lemma filled_splits pre k : bytes pre -> (k <= 7)%nat -> splits (codes pre ++ repeat true k) pre (repeat true k).
Proof. intros Hb Hk. split; [reflexivity|]. split; [exact Hb|]. intros a Ha. apply ones_no_code; [lia|exact Ha]. Qed.

Lemma codes_app a b : codes (a ++ b) = codes a ++ codes b.
Proof. apply flat_map_app. Qed.

(* Octets to come after [body], [n] of them. *)
Lemma huffman_fill body syms tail a c n : bytes body -> splits (bits_of_bytes body) syms tail -> a < 256 ->
  code a = tail ++ c -> (List.length c <= 8 * n)%nat ->
  exists h s pad, bytes h /\ List.length h = n /\ splits (bits_of_bytes (body ++ h)) s pad /\ code_padding pad.
Proof.
  intros Hb (E & Bs & _) Ha Ec Hl.
  destruct (fill (8 * n - List.length c)) as (s2 & pad & B2 & L2 & P2 & L3).
  destruct (bits_to_bytes n (c ++ codes s2 ++ pad)) as (h & Bh & Eh & Lh); [rewrite app_length; lia|].
  exists h, (syms ++ a :: s2), pad. split; [exact Bh|]. split; [exact Lh|].
  assert (X : bits_of_bytes (body ++ h) = codes (syms ++ a :: s2) ++ pad).
  { rewrite bits_of_bytes_app, E, Eh, codes_app. change (codes (a :: s2)) with (code a ++ codes s2). rewrite Ec, <- !app_assoc. reflexivity. }
  rewrite X, P2. split.
  - apply filled_splits; [|exact L2]. apply Forall_app. split; [exact Bs|]. constructor; [exact Ha|exact B2].
  - apply ones_accepted. exact L2.
Qed.

Lemma huffman_any n : exists h s pad, bytes h /\ List.length h = n /\ splits (bits_of_bytes h) s pad /\ code_padding pad.
Proof.
  destruct (fill (8 * n)) as (s2 & pad & B2 & L2 & P2 & L3).
  destruct (bits_to_bytes n (codes s2 ++ pad) L3) as (h & Bh & Eh & Lh).
  exists h, s2, pad. split; [exact Bh|]. split; [exact Lh|]. rewrite Eh, P2.
  split; [now apply filled_splits|now apply ones_accepted].
Qed.

(* ------------------------------------------------------------------ *)
(* Unfinished integers. *)
Lemma least_leb t : continued t -> exists r, leb128 (t ++ [0]) r /\
  forall u r', leb128 (t ++ u) r' -> r <= r'.
Proof.
  induction 1 as [|c t Hc Ht IH].
  - exists 0. split; [constructor; lia|]. intros. lia.
  - destruct IH as (r & H1 & H2). exists (c - 128 + 128 * r).
    split; [replace ((c :: t) ++ [0]) with ((128 + (c - 128)) :: t ++ [0]) by (cbn; f_equal; lia); apply leb_more; [lia|exact H1]|].
    intros u r' H. cbn [app] in H. inversion H as [b Hb E|b bs v Hb Hv E]; subst.
    + lia.
    + specialize (H2 _ _ Hv). lia.
Qed.

Lemma unfinished_of_cut p hi bs : cut_int p hi bs -> exists v, unfinished_int p hi bs v.
Proof.
  intros (t & -> & Hc & Hl). destruct (least_leb t Hc) as (r & H & _).
  exists (2 ^ p - 1 + r), t, r. auto.
Qed.

Lemma cut_of_unfinished p hi bs v : unfinished_int p hi bs v -> cut_int p hi bs.
Proof. intros (t & r & -> & Hc & Hl & _). exists t. auto. Qed.

Lemma unfinished_done p hi bs v : unfinished_int p hi bs v -> int_wire 5 p hi (bs ++ [0]) v.
Proof.
  intros (t & r & -> & Hc & Hl & Hr & ->). cbn [app]. constructor; [exact Hr|]. rewrite app_length. cbn. lia.
Qed.

(* Whatever it becomes, it becomes at least v. *)
Lemma unfinished_least p hi hi' bs v b x y v' : 1 <= p <= 8 -> bytes (bs ++ y) -> unfinished_int p hi bs v ->
  int_wire 5 p hi' b v' -> b ++ x = bs ++ y -> (List.length bs < List.length b)%nat /\ v <= v'.
Proof.
  intros Hp Hb (t & r & -> & Hc & Hl & Hr & ->) Hw E.
  destruct (least_leb t Hc) as (r0 & H0 & Hmin). rewrite (leb_fun _ _ _ Hr H0) in *. clear Hr r.
  pose proof (mask_pos p Hp) as Mp.
  destruct Hw as [w Hw L|t' r' Ht' L].
  - exfalso. cbn [app] in E. injection E as E _.
    assert (M1 : (hi' * 2 ^ p + w) mod 2 ^ p = w) by (rewrite N.add_comm, N.mod_add by lia; apply N.mod_small; lia).
    assert (M2 : (hi * 2 ^ p + (2 ^ p - 1)) mod 2 ^ p = 2 ^ p - 1) by (rewrite N.add_comm, N.mod_add by lia; apply N.mod_small; lia).
    rewrite E in M1. lia.
  - cbn [app] in E. injection E as _ E.
    destruct (Nat.le_gt_cases (List.length t') (List.length t)) as [C|C].
    { exfalso. symmetry in E. exact (continued_not_leb _ _ _ _ _ Hc Ht' C E). }
    split; [cbn; lia|].
    assert (t' = t ++ skipn (List.length t) t') as Et.
    { rewrite <- (firstn_skipn (List.length t) t') at 1. f_equal.
      pose proof (f_equal (firstn (List.length t)) E) as F. rewrite firstn_app in F.
      replace (List.length t - List.length t')%nat with O in F by lia. rewrite firstn_O, app_nil_r in F.
      rewrite firstn_app, Nat.sub_diag, firstn_O, app_nil_r, firstn_all in F. exact F. }
    rewrite Et in Ht'. specialize (Hmin _ _ Ht'). lia.
Qed.

(* ------------------------------------------------------------------ *)
(* Completing. *)
Lemma some_octets n : exists s, bytes s /\ N.of_nat (List.length s) = n.
Proof.
  exists (repeat 97 (N.to_nat n)). split; [|rewrite repeat_length; apply N2Nat.id].
  apply Forall_forall. intros x Hx. apply repeat_spec in Hx. subst x. unfold is_byte. lia.
Qed.

Lemma empty_string : string_wire 5 code_padding false [0] [].
Proof. apply (string_plain 5 code_padding [0] []). refine (int_short 5 7 0 0 _ _); [reflexivity|lia]. Qed.

Lemma string_completed bs : bytes bs -> hopeful_string bs ->
  exists more h s, bytes more /\ string_wire 5 code_padding h (bs ++ more) s.
Proof.
  intros Hb H. destruct H as [|hi bs v Hh Hi|lb len body Hi Hl|lb len body syms tail a c Hi Hl Hs Ha Ec Hc].
  - exists [0], false, []. split; [repeat constructor|]. exact empty_string.
  - apply unfinished_done in Hi. assert (hi = 0 \/ hi = 1) as [->| ->] by lia.
    + destruct (some_octets v) as (s & Bs & Ls). exists ([0] ++ s), false, s.
      split; [constructor; [reflexivity|exact Bs]|]. rewrite app_assoc. apply string_plain. rewrite Ls. exact Hi.
    + destruct (huffman_any (N.to_nat v)) as (h & s & pad & Bh & Lh & Sh & Ph). exists ([0] ++ h), true, s.
      split; [constructor; [reflexivity|exact Bh]|]. rewrite app_assoc.
      refine (string_huffman 5 code_padding _ h s pad _ Bh Sh Ph). rewrite Lh, N2Nat.id. exact Hi.
  - destruct (some_octets (len - N.of_nat (List.length body))) as (s & Bs & Ls). exists s, false, (body ++ s).
    split; [exact Bs|]. rewrite <- app_assoc. apply string_plain.
    replace (N.of_nat (List.length (body ++ s))) with len; [exact Hi|]. rewrite app_length. lia.
  - apply bytes_app in Hb as [_ Hb].
    destruct (huffman_fill body syms tail a c (N.to_nat (len - N.of_nat (List.length body))) Hb Hs Ha Ec) as (h & s & pad & Bh & Lh & Sh & Ph); [lia|].
    exists h, true, s. split; [exact Bh|]. rewrite <- app_assoc.
    refine (string_huffman 5 code_padding _ (body ++ h) s pad _ _ Sh Ph).
    + replace (N.of_nat (List.length (body ++ h))) with len; [exact Hi|]. rewrite app_length. lia.
    + apply bytes_app. auto.
Qed.

Lemma lookup_some l i : 1 <= i -> i <= 61 + N.of_nat (List.length l) -> exists e, lookup l i = Some e.
Proof.
  intros H1 H2. destruct (lookup l i) as [e|] eqn:E; [eauto|]. apply lookup_None in E. lia.
Qed.

Lemma unfinished_pos p hi bs v : 4 <= p -> unfinished_int p hi bs v -> 1 <= v.
Proof.
  intros Hp (t & r & _ & _ & _ & _ & ->). pose proof (N.pow_le_mono_r 2 4 p ltac:(lia) Hp) as Q. change (2 ^ 4) with 16 in Q. lia.
Qed.

Lemma repr_completed limit d rest : bytes rest -> hopeful (entries d) limit rest ->
  exists more r x, bytes more /\ repr_wire 5 code_padding (rest ++ more) r /\ interp limit d r = inl x.
Proof.
  assert (B0 : bytes [0]) by (repeat constructor).
  assert (K : forall k, 4 <= kind_prefix k) by (destruct k; cbn; lia).
  intros Hb H. destruct H as [bs i Hi Hl|bs n Hi Hl|k bs i Hi Hl|k bi i e rest Hi Hn He Hs|k bi rest Hi Hs|k bi hn bn n rest Hi Hs1 Hs].
  - pose proof (unfinished_pos 7 1 bs i ltac:(lia) Hi) as P. apply unfinished_done in Hi.
    destruct (lookup_some _ _ P Hl) as ([n v] & E).
    exists [0], (RIndexed i). eexists. split; [exact B0|]. split; [constructor; exact Hi|]. cbn [interp]. rewrite E. reflexivity.
  - apply unfinished_done in Hi. exists [0], (RSize n). eexists. split; [exact B0|]. split; [constructor; exact Hi|].
    cbn [interp]. apply N.leb_le in Hl. rewrite Hl. reflexivity.
  - pose proof (unfinished_pos _ _ _ _ (K k) Hi) as P. apply unfinished_done in Hi.
    destruct (lookup_some _ _ P Hl) as ([n v] & E).
    exists ([0] ++ [0]), (RLiteral k (NameIndex i) false []). eexists. split; [apply bytes_app; auto|].
    split; [rewrite app_assoc; apply wire_indexed_name; [exact Hi|lia|exact empty_string]|].
    cbn [interp resolve]. rewrite E. reflexivity.
  - apply bytes_app in Hb as [Hb1 Hb2]. destruct (string_completed rest Hb2 Hs) as (more & h & s & Bm & Ws).
    exists more, (RLiteral k (NameIndex i) h s). eexists. split; [exact Bm|].
    split; [rewrite <- app_assoc; apply wire_indexed_name; assumption|]. cbn [interp resolve]. rewrite He. reflexivity.
  - apply bytes_app in Hb as [Hb1 Hb2]. destruct (string_completed rest Hb2 Hs) as (more & h & s & Bm & Ws).
    exists (more ++ [0]), (RLiteral k (NameLiteral h s) false []). eexists. split; [apply bytes_app; auto|].
    split; [rewrite <- !app_assoc, (app_assoc rest); apply wire_new_name; [exact Hi|exact Ws|exact empty_string]|]. reflexivity.
  - apply bytes_app in Hb as [Hb1 Hb2]. apply bytes_app in Hb2 as [_ Hb2].
    destruct (string_completed rest Hb2 Hs) as (more & h & s & Bm & Ws).
    exists more, (RLiteral k (NameLiteral hn n) h s). eexists. split; [exact Bm|].
    split; [rewrite <- !app_assoc; apply wire_new_name; assumption|]. reflexivity.
Qed.

(* ------------------------------------------------------------------ *)
(* No other way. *)
Lemma starts_same syms : forall s tl tail B, bytes syms -> bytes s -> (forall a, a < 256 -> ~ prefix (code a) tl) ->
  codes syms ++ tail ++ B = codes s ++ tl -> exists s', s = syms ++ s' /\ tail ++ B = codes s' ++ tl.
Proof.
  induction syms as [|a syms IH]; intros s tl tail B Hy Hs Hno E.
  - exists s. auto.
  - inversion Hy; subst. destruct s as [|b s].
    + exfalso. cbn in E. apply (Hno a H1). exists (codes syms ++ tail ++ B). rewrite <- E. rewrite <- app_assoc. reflexivity.
    + inversion Hs; subst. unfold codes in E. cbn [flat_map] in E. rewrite <- !app_assoc in E. fold (codes syms) (codes s) in E.
      assert (a = b) as <-.
      { apply (prefix_of_same a b (code a ++ codes syms ++ tail ++ B)); [unfold is_byte in *; lia|unfold is_byte in *; lia|eexists; reflexivity|].
        rewrite E. eexists. reflexivity. }
      apply app_inv_head in E. destruct (IH s tl tail B H2 H4 Hno E) as (s' & -> & E'). exists s'. auto.
Qed.

Lemma huffman_hope body u s tl : bytes body -> bytes u -> u <> [] -> splits (bits_of_bytes (body ++ u)) s tl -> code_padding tl ->
  exists syms tail a c, splits (bits_of_bytes body) syms tail /\ a < 256 /\ code a = tail ++ c /\
    (List.length c <= 8 * List.length u)%nat.
Proof.
  intros Hb Hu Hne Hs Hp. pose proof (accepted_tail_short _ _ _ Hs Hp) as Ls.
  destruct (splits_total (bits_of_bytes body)) as (syms & tail & Hs1). exists syms, tail.
  destruct Hs as (E & Bs & Hno). destruct Hs1 as (E1 & Bs1 & Hno1).
  rewrite bits_of_bytes_app, E1, <- app_assoc in E.
  destruct (starts_same syms s tl tail (bits_of_bytes u) Bs1 Bs Hno E) as (s' & -> & E2).
  assert (Lu : (8 <= List.length (bits_of_bytes u))%nat) by (rewrite bits_of_bytes_length; destruct u; [congruence|cbn; lia]).
  destruct s' as [|a s'].
  - exfalso. cbn in E2. subst tl. rewrite app_length in Ls. lia.
  - apply Forall_app in Bs as [_ Bs]. inversion Bs; subst.
    unfold codes in E2. cbn [flat_map] in E2. rewrite <- app_assoc in E2. fold (codes s') in E2.
    destruct (Nat.le_gt_cases (List.length (code a)) (List.length tail)) as [C|C].
    + exfalso. apply (Hno1 a H1). apply (prefix_total (code a) tail (tail ++ bits_of_bytes u)); [rewrite E2; eexists; reflexivity|eexists; reflexivity|exact C].
    + destruct (prefix_total tail (code a) (tail ++ bits_of_bytes u)) as (c & Ec); [eexists; reflexivity|rewrite E2; eexists; reflexivity|lia|].
      exists a, c. split; [split; auto|]. split; [exact H1|]. split; [exact Ec|].
      pose proof (f_equal (@List.length bool) E2) as L. rewrite Ec, !app_length, bits_of_bytes_length in L. lia.
Qed.

Lemma string_hope bs f h b s x y : string_fault bs f -> f = Cut \/ f = Short -> string_wire 5 code_padding h b s ->
  bytes (bs ++ y) -> b ++ x = bs ++ y -> hopeful_string bs.
Proof.
  intros Hf D Hw Hb E. destruct Hf as [|hi bs f Hh Hi|hi lb len body Hh Hi Hl|lb t rest syms tail Hi Hs Hp].
  - constructor.
  - destruct Hi as [Hi|Hi]; [|destruct D; discriminate]. destruct (unfinished_of_cut _ _ _ Hi) as (v & Hv).
    exact (hs_length hi bs v Hh Hv).
  - rewrite <- app_assoc in E.
    destruct Hw as [lb' s Hi'|lb' t s rest Hi' Bt St Pt]; rewrite <- app_assoc in E;
      destruct (int_wire_unique 7 _ _ _ _ _ _ _ _ _ _ p7 Hi' Hi E) as (-> & <- & E' & <-).
    + exact (hs_plain lb _ body Hi Hl).
    + assert (Lt : (List.length body < List.length t)%nat) by lia.
      assert (Et : t = body ++ skipn (List.length body) t).
      { rewrite <- (firstn_skipn (List.length body) t) at 1. f_equal.
        pose proof (f_equal (firstn (List.length body)) E') as F. rewrite !firstn_app in F.
        replace (List.length body - List.length t)%nat with O in F by lia.
        rewrite Nat.sub_diag, !firstn_O, !app_nil_r, firstn_all in F. exact F. }
      set (u := skipn (List.length body) t) in *. clearbody u.
      assert (Lu : List.length t = (List.length body + List.length u)%nat) by (rewrite Et, app_length; reflexivity).
      rewrite Et in Bt, St. apply bytes_app in Bt as [B1 B2].
      destruct (huffman_hope body u s rest B1 B2) as (syms & tail & a & c & H1 & H2 & H3 & H4); [destruct u; [cbn in Lu; lia|discriminate]|exact St|exact Pt|].
      refine (hs_huffman lb _ body syms tail a c Hi Hl H1 H2 H3 _). lia.
  - destruct D; discriminate.
Qed.

(* The representation that comes of it has the same first octet, so the same form. *)
Lemma same_form rest more b x r r0 : bytes (rest ++ more) -> head_is (fst (lead r0)) (snd (lead r0)) rest ->
  repr_wire 5 code_padding b r -> b ++ x = rest ++ more ->
  lead r0 = lead r /\ (forall i, r0 = RIndexed i -> exists j, r = RIndexed j) /\
  (forall n, r0 = RSize n -> exists j, r = RSize j) /\
  (forall k n h v, r0 = RLiteral k n h v -> exists n' h' v', r = RLiteral k n' h' v').
Proof.
  intros Hb [Hne Hh] Hw E. destruct (repr_lead _ _ _ _ Hw) as (bi & tl & Eb & Wi).
  assert (Q : hd 0 (rest ++ more) = hd 0 rest) by (destruct rest; [congruence|reflexivity]).
  rewrite <- E, Eb, <- app_assoc in Hb, Q.
  destruct (wire_class 5 _ _ bi _ (tl ++ x) (lead_prefix r) Wi Hb) as [H1 H2]. rewrite Q in H1, H2.
  exact (lead_unique r0 r (hd 0 rest) H2 Hh H1).
Qed.

Lemma literal_parts k nr hv v b : repr_wire 5 code_padding b (RLiteral k nr hv v) ->
  exists bi tl, b = bi ++ tl /\
    (exists i, nr = NameIndex i /\ i <> 0 /\ int_wire 5 (kind_prefix k) (kind_bits k) bi i /\ string_wire 5 code_padding hv tl v \/
     exists hn n bn bv, nr = NameLiteral hn n /\ i = 0 /\ int_wire 5 (kind_prefix k) (kind_bits k) bi 0 /\ tl = bn ++ bv /\
       string_wire 5 code_padding hn bn n /\ string_wire 5 code_padding hv bv v).
Proof.
  intros H. inversion H; subst.
  - do 2 eexists. split; [reflexivity|]. eexists. left. eauto.
  - do 2 eexists. split; [reflexivity|]. exists 0. right. do 4 eexists. eauto 10.
Qed.

Lemma repr_hope limit d rest more f b x r y : repr_fault (entries d) rest f -> f = Cut \/ f = Short ->
  repr_wire 5 code_padding b r -> b ++ x = rest ++ more -> bytes (rest ++ more) -> interp limit d r = inl y ->
  hopeful (entries d) limit rest.
Proof.
  intros Hf D Hw E Hb Hi.
  assert (NL : f <> Long) by (destruct D; subst; discriminate).
  assert (PK : forall k, 1 <= kind_prefix k <= 8) by (destruct k; cbn; lia).
  destruct Hf as [rest f H|rest f H|k rest f H|k bi i rest H H0 Hl|k bi i e rest f H H0 Hl Hs|k bi rest f H Hs|k bi hn bn n rest f H Hn Hs].
  - destruct (same_form rest more b x r (RIndexed 0) Hb (head_fault 7 1 rest f p7 H) Hw E) as (_ & C & _).
    destruct (C 0 eq_refl) as (j & ->). destruct H as [H|H]; [|congruence].
    destruct (unfinished_of_cut _ _ _ H) as (v & Hv). inversion Hw; subst.
    destruct (unfinished_least 7 1 1 rest v b x more j ltac:(lia) Hb Hv ltac:(assumption) E) as [_ L].
    cbn [interp] in Hi. destruct (lookup (entries d) j) as [e|] eqn:El; [|discriminate Hi].
    apply lookup_bound in El. apply (ho_indexed _ _ rest v Hv). lia.
  - destruct (same_form rest more b x r (RSize 0) Hb (head_fault 5 1 rest f p5 H) Hw E) as (_ & _ & C & _).
    destruct (C 0 eq_refl) as (j & ->). destruct H as [H|H]; [|congruence].
    destruct (unfinished_of_cut _ _ _ H) as (v & Hv). inversion Hw; subst.
    destruct (unfinished_least 5 1 1 rest v b x more j ltac:(lia) Hb Hv ltac:(assumption) E) as [_ L].
    cbn [interp] in Hi. destruct (j <=? limit) eqn:El; [|discriminate Hi]. apply N.leb_le in El.
    apply (ho_size _ _ rest v Hv). lia.
  - destruct (same_form rest more b x r (RLiteral k (NameIndex 0) false []) Hb (head_fault _ _ rest f (kp_ok k) H) Hw E) as (_ & _ & _ & C).
    destruct (C _ _ _ _ eq_refl) as (nr & hv & vv & ->). destruct H as [H|H]; [|congruence].
    destruct (unfinished_of_cut _ _ _ H) as (v & Hv).
    destruct (literal_parts _ _ _ _ _ Hw) as (bi & tl & -> & i & P). rewrite <- app_assoc in E.
    destruct P as [(-> & Hi0 & W & S1)|(hn & n & bn & bv & -> & -> & W & -> & S1 & S2)].
    + destruct (unfinished_least _ _ _ rest v bi _ more i (PK k) Hb Hv W E) as [_ L].
      cbn [interp resolve] in Hi. destruct (lookup (entries d) i) as [e|] eqn:El; [|discriminate Hi].
      apply lookup_bound in El. apply (ho_name_index _ _ k rest v Hv). lia.
    + destruct (unfinished_least _ _ _ rest v bi _ more 0 (PK k) Hb Hv W E) as [_ L].
      apply (ho_name_index _ _ k rest v Hv). lia.
  - destruct D; discriminate.
  - destruct (same_form (bi ++ rest) more b x r (RLiteral k (NameIndex 0) false []) Hb (head_wire _ _ _ _ _ rest (kp_ok k) H) Hw E) as (_ & _ & _ & C).
    destruct (C _ _ _ _ eq_refl) as (nr & hv & vv & ->).
    destruct (literal_parts _ _ _ _ _ Hw) as (bi' & tl & -> & i' & P). rewrite <- !app_assoc in E. rewrite <- app_assoc in Hb.
    apply bytes_app in Hb as [_ Hb].
    destruct P as [(-> & Hi0 & W & S1)|(hn & n & bn & bv & -> & -> & W & -> & S1 & S2)];
      destruct (int_wire_unique _ _ _ _ _ _ _ _ _ _ _ (kp_ok k) W H E) as (-> & <- & E' & _); [|congruence].
    apply (ho_value1 _ _ k bi i' e rest H Hi0 Hl). exact (string_hope rest f hv tl vv x more Hs D S1 Hb E').
  - destruct (same_form (bi ++ rest) more b x r (RLiteral k (NameIndex 0) false []) Hb (head_wire _ _ _ _ _ rest (kp_ok k) H) Hw E) as (_ & _ & _ & C).
    destruct (C _ _ _ _ eq_refl) as (nr & hv & vv & ->).
    destruct (literal_parts _ _ _ _ _ Hw) as (bi' & tl & -> & i' & P). rewrite <- !app_assoc in E. rewrite <- app_assoc in Hb.
    apply bytes_app in Hb as [_ Hb].
    destruct P as [(-> & Hi0 & W & S1)|(hn & n & bn & bv & -> & -> & W & -> & S1 & S2)];
      destruct (int_wire_unique _ _ _ _ _ _ _ _ _ _ _ (kp_ok k) W H E) as (-> & Z & E' & _); [congruence|].
    rewrite <- app_assoc in E'.
    apply (ho_name _ _ k bi rest H). exact (string_hope rest f hn bn n _ more Hs D S1 Hb E').
  - destruct (same_form (bi ++ bn ++ rest) more b x r (RLiteral k (NameIndex 0) false []) Hb (head_wire _ _ _ _ _ (bn ++ rest) (kp_ok k) H) Hw E) as (_ & _ & _ & C).
    destruct (C _ _ _ _ eq_refl) as (nr & hv & vv & ->).
    destruct (literal_parts _ _ _ _ _ Hw) as (bi' & tl & -> & i' & P). rewrite <- !app_assoc in E. rewrite <- !app_assoc in Hb.
    apply bytes_app in Hb as [_ Hb]. apply bytes_app in Hb as [_ Hb].
    destruct P as [(-> & Hi0 & W & S1)|(hn' & n' & bn' & bv & -> & -> & W & -> & S1 & S2)];
      destruct (int_wire_unique _ _ _ _ _ _ _ _ _ _ _ (kp_ok k) W H E) as (-> & Z & E' & _); [congruence|].
    rewrite <- app_assoc in E'. destruct (string_wire_unique _ _ _ _ _ _ _ _ _ S1 Hn E') as (-> & -> & -> & E2).
    apply (ho_value2 _ _ k bi hn bn n rest H Hn). exact (string_hope rest f hv bv vv x more Hs D S2 Hb E2).
Qed.

(* ------------------------------------------------------------------ *)
(* Whole blocks. *)
Lemma block_starts p0 : forall prs rest more, wires 5 code_padding p0 -> wires 5 code_padding prs ->
  bytes (wire_octets p0 ++ rest ++ more) -> rest <> [] -> wire_octets p0 ++ rest ++ more = wire_octets prs ->
  (exists pr prs', prs = p0 ++ pr :: prs' /\ rest ++ more = fst pr ++ wire_octets prs').
Proof.
  induction p0 as [|[b r] p0 IH]; intros prs rest more H0 H1 Hb Hne E; unfold wire_octets in *; cbn [map concat fst app] in *.
  - destruct prs as [|pr prs']; [cbn in E; destruct rest; [congruence|discriminate E]|]. exists pr, prs'. auto.
  - inversion H0; subst. cbn [fst snd] in *. pose proof (repr_wire_nonempty _ _ _ _ H3) as L.
    destruct prs as [|[b' r'] prs]; [cbn in E; destruct b; [cbn in L; lia|discriminate E]|].
    inversion H1; subst. cbn [map concat fst snd] in *. rewrite <- app_assoc in E, Hb.
    destruct (repr_wire_unique _ _ _ _ _ _ _ H3 H5 Hb E) as (-> & -> & E').
    apply bytes_app in Hb as [_ Hb]. destruct (IH prs rest more H4 H6 Hb Hne E') as (pr & prs' & -> & E2).
    exists pr, prs'. auto.
Qed.

Lemma ends_nil limit d s : ends limit d [] s -> s = Done.
Proof.
  intros H. inversion H as [|? f Hf|b r rest e Hr Hi E]; subst; [reflexivity| |].
  - apply repr_fault_nonempty in Hf. congruence.
  - apply repr_wire_nonempty in Hr. destruct b; [cbn in Hr; lia|discriminate E].
Qed.

Lemma hope_exact m d buf d1 rest hs o : wf (dtable d) -> bytes buf ->
  hdecode m d buf [] = ((d1, rest, hs), o) -> o = Err DIntegerUnderflow \/ o = Panic ->
  (completable m d buf <-> hopeful (inner (dtable d1)) (dlimit d) rest).
Proof.
  intros Hw Hb E A. destruct (hdecode_total m d buf [] Hw Hb) as (p0 & rest' & x0 & hs0 & s & E1 & W0 & I0 & He & Hwf & E3).
  rewrite E in E3. injection E3 as -> -> -> ->.
  assert (exists f, repr_fault (entries x0) rest' f /\ (f = Cut \/ f = Short)) as (f & Hf & D).
  { destruct He as [|r0 f H|b r r0 e H1 H2]; [destruct A; discriminate| |destruct e; destruct A; discriminate].
    exists f. split; [exact H|]. destruct f; auto; destruct A; discriminate. }
  change (inner (dtable (set_table d (conc x0)))) with (entries x0). split.
  - intros (more & d2 & hs & n & Bm & Q).
    assert (Bb : bytes (buf ++ more)) by (apply bytes_app; auto).
    destruct (hdecode_total m d (buf ++ more) [] Hw Bb) as (prs & rest2 & x2 & hs2 & s2 & E4 & W2 & I2 & He2 & _ & E5).
    rewrite Q in E5. injection E5 as _ <- _ _. rewrite app_nil_r in E4.
    rewrite E1, <- app_assoc in E4, Bb.
    destruct (block_starts p0 prs rest' more W0 W2 Bb (repr_fault_nonempty _ _ _ Hf) E4) as ([b r] & prs' & -> & E6).
    unfold reprs in I2. rewrite map_app in I2. fold (reprs p0) in I2. rewrite interp_all_app, I0 in I2. cbn [map snd interp_all] in I2.
    destruct (interp (dlimit d) x0 r) as [y|] eqn:Ei; [|discriminate I2].
    apply bytes_app in Bb as [_ Bb]. apply Forall_app in W2 as [_ W2]. inversion W2; subst. cbn [fst snd] in *.
    symmetry in E6. exact (repr_hope (dlimit d) x0 rest' more f b _ r y Hf D H1 E6 Bb Ei).
  - intros Hh. assert (Br : bytes rest') by (rewrite E1 in Hb; apply bytes_app in Hb; tauto).
    destruct (repr_completed (dlimit d) x0 rest' Br Hh) as (more & r & [x1 h1] & Bm & Wr & Ir).
    assert (EO : wire_octets (p0 ++ [(rest' ++ more, r)]) ++ [] = buf ++ more).
    { unfold wire_octets. rewrite app_nil_r, map_app, concat_app. cbn [map concat fst]. rewrite app_nil_r, E1, <- app_assoc. reflexivity. }
    assert (IO : interp_all (dlimit d) (abs (dtable d)) (reprs (p0 ++ [(rest' ++ more, r)])) = Some (x1, hs0 ++ h1)).
    { unfold reprs. rewrite map_app. fold (reprs p0). rewrite interp_all_app, I0. cbn [map snd interp_all]. rewrite Ir, app_nil_r. reflexivity. }
    exists more. do 3 eexists. split; [exact Bm|]. rewrite <- EO.
    refine (hdecode_ok m d _ [] x1 (hs0 ++ h1) Done [] Hw _ _ IO (ends_done _ _)).
    + rewrite EO. apply bytes_app. auto.
    + apply Forall_app. split; [exact W0|]. constructor; [exact Wr|constructor].
Qed.
