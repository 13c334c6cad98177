(* Header blocks are unambiguous (C112). *)
From Verif Require Import Base HuffTables HuffModel HuffSpec HuffCode Leb HpackStatic HpackModel
  HpackSpec HpackApi HpackInt HpackStr HpackTab HpackDec HpackEnc HpackDerived HpackMore HpackMore2 HpackUnique.
Open Scope list_scope.
Open Scope N_scope.

(* Uniqueness of strings and representations, whatever the length of their integers. *)
Lemma string_wire_unique_at lim lim' pad h h' a b s s' x y :
  string_wire lim pad h a s -> string_wire lim' pad h' b s' -> a ++ x = b ++ y ->
  h = h' /\ a = b /\ s = s' /\ x = y.
Proof.
  intros H1 H2 E.
  destruct H1 as [la sa Ia|la ha sa ra Ia Ba Sa Pa]; destruct H2 as [lb sb Ib|lb hb sb rb Ib Bb Sb Pb];
    rewrite <- !app_assoc in E;
    destruct (int_wire_unique 7 _ _ _ _ _ _ _ _ _ _ p7 Ia Ib E) as (-> & L & E' & Hh); try discriminate Hh;
    apply Nnat.Nat2N.inj in L; destruct (app_same_length _ _ _ _ L E') as [-> ->].
  - auto.
  - destruct (splits_unique _ _ _ _ _ Sa Sb) as [-> _]. auto.
Qed.
Theorem repr_wire_unique_at lim lim' pad a r x b r' y :
  repr_wire lim pad a r -> repr_wire lim' pad b r' -> bytes (a ++ x) -> a ++ x = b ++ y ->
  a = b /\ r = r' /\ x = y.
Proof.
  intros H1 H2 Hb E.
  destruct (repr_lead _ _ _ _ H1) as (bi & tl & Ea & W1). destruct (repr_lead _ _ _ _ H2) as (bj & tl' & Eb & W2).
  assert (E' := E). rewrite Ea, Eb, <- !app_assoc in E'.
  assert (Hb1 : bytes (bi ++ tl ++ x)) by (rewrite app_assoc, <- Ea; exact Hb).
  destruct (wire_class _ _ _ _ _ _ (lead_prefix r) W1 Hb1) as [D1 L].
  assert (Hb2 : bytes (bj ++ tl' ++ y)) by (rewrite <- E'; exact Hb1).
  destruct (wire_class _ _ _ _ _ _ (lead_prefix r') W2 Hb2) as [D2 _].
  rewrite E' in D1, L.
  destruct (lead_unique r r' _ L D1 D2) as (_ & U1 & U2 & U3).
  clear E' Hb1 Hb2 D1 D2 L W1 W2 Ea Eb bi bj tl tl'.
  destruct H1 as [bs i I1|k bs i hv bv v I1 Ni Sv|k bs hn bn n hv bv v I1 Sn Sv|bs n I1].
  - destruct (U1 i eq_refl) as [j ->]. inversion H2 as [bs' i' I2| | |]; subst b.
    destruct (int_wire_unique _ _ _ _ _ _ _ _ _ _ _ p7 I1 I2 E) as (-> & -> & -> & _). auto.
  - destruct (U3 k _ _ _ eq_refl) as (n' & h' & v' & ->).
    inversion H2 as [|k' bs' i' hv' bv' w' I2 Ni' Sv'|k' bs' hn' bn' m' hv' bv' w' I2 Sn' Sv'|]; subst;
      rewrite <- !app_assoc in E;
      destruct (int_wire_unique _ _ _ _ _ _ _ _ _ _ _ (kp_ok k) I1 I2 E) as (-> & -> & E2 & _); [|congruence].
    destruct (string_wire_unique_at _ _ _ _ _ _ _ _ _ _ _ Sv Sv' E2) as (-> & -> & -> & ->). auto.
  - destruct (U3 k _ _ _ eq_refl) as (n' & h' & v' & ->).
    inversion H2 as [|k' bs' i' hv' bv' w' I2 Ni' Sv'|k' bs' hn' bn' m' hv' bv' w' I2 Sn' Sv'|]; subst;
      rewrite <- !app_assoc in E;
      destruct (int_wire_unique _ _ _ _ _ _ _ _ _ _ _ (kp_ok k) I1 I2 E) as (-> & Ei & E2 & _); [congruence|].
    destruct (string_wire_unique_at _ _ _ _ _ _ _ _ _ _ _ Sn Sn' E2) as (-> & -> & -> & E3).
    destruct (string_wire_unique_at _ _ _ _ _ _ _ _ _ _ _ Sv Sv' E3) as (-> & -> & -> & ->). auto.
  - destruct (U2 n eq_refl) as [j ->]. inversion H2 as [| | |bs' i' I2]; subst b.
    destruct (int_wire_unique _ _ _ _ _ _ _ _ _ _ _ p5 I1 I2 E) as (-> & -> & -> & _). auto.
Qed.
Lemma wires_unique lim lim' pad : forall p1 p2 x, wires lim pad p1 -> wires lim' pad p2 -> bytes (wire_octets p2) ->
  wire_octets p1 ++ x = wire_octets p2 -> exists p3, p2 = p1 ++ p3 /\ x = wire_octets p3.
Proof.
  induction p1 as [|[b r] p1 IH]; intros p2 x H1 H2 Hb E; [exists p2; split; [reflexivity|exact E]|].
  inversion H1 as [|? ? W1 H1']; subst. cbn [fst snd] in W1. unfold wire_octets in E. cbn [map concat fst] in E. fold (wire_octets p1) in E.
  destruct p2 as [|[b' r'] p2].
  - exfalso. apply (f_equal (@List.length N)) in E. rewrite !app_length in E. pose proof (repr_wire_nonempty _ _ _ _ W1). cbn [map concat List.length] in E. lia.
  - inversion H2 as [|? ? W2 H2']; subst. cbn [fst snd] in W2. cbn [map concat fst] in E. fold (wire_octets p2) in E.
    unfold wire_octets in Hb. cbn [map concat fst] in Hb. fold (wire_octets p2) in Hb.
    rewrite <- app_assoc in E. pose proof Hb as Hb'. rewrite <- E in Hb'.
    destruct (repr_wire_unique_at lim lim' pad b r _ b' r' _ W1 W2 Hb' E) as (-> & -> & E').
    apply Forall_app in Hb. destruct (IH p2 x H1' H2' (proj2 Hb) E') as (p3 & -> & ->). exists p3. split; reflexivity.
Qed.

Lemma typed_within ops : Forall op_typed ops -> Forall (resize_within 4294967295) ops.
Proof.
  intros H. apply Forall_forall. intros o Ho. pose proof (proj1 (Forall_forall _ _) H o Ho) as T. destruct o as [f|n]; cbn in *; [exact Logic.I|].
  change (2 ^ 32) with 4294967296 in T. lia.
Qed.
(* If the octets of one session start with those of another, so do its headers, and what
   follows is what the rest of the octets means. *)
Theorem session_prefix m m' t ops1 ops2 t1 t2 out1 out2 rs1 rs2 x : wf t -> Forall op_typed ops1 -> Forall op_typed ops2 ->
  run_ops m t [] ops1 = (t1, out1, rs1) -> run_ops m' t [] ops2 = (t2, out2, rs2) -> no_overflow rs1 -> no_overflow rs2 ->
  out2 = out1 ++ x ->
  (exists hs, snd (fst (meaning (abs t) ops2)) = snd (fst (meaning (abs t) ops1)) ++ hs) /\
  (x = [] -> t1 = t2 /\ snd (fst (meaning (abs t) ops2)) = snd (fst (meaning (abs t) ops1))).
Proof.
  intros W T1 T2 E1 E2 N1 N2 Ex0.
  pose proof (session_wide m 4294967295 ops1 t [] W T1 (typed_within _ T1)) as S1. rewrite E1 in S1. cbn [snd] in S1.
  destruct (S1 N1) as (o1 & p1 & d1 & h1 & R1 & M1 & O1 & P1 & B1 & I1). clear S1.
  pose proof (session_wide m' 4294967295 ops2 t [] W T2 (typed_within _ T2)) as S2. rewrite E2 in S2. cbn [snd] in S2.
  destruct (S2 N2) as (o2 & p2 & d2 & h2 & R2 & M2 & O2 & P2 & B2 & I2). clear S2.
  injection R1 as ? Q1 _. injection R2 as ? Q2 _. cbn [app] in Q1, Q2. rewrite M1, M2. cbn [snd]. subst t1 t2.
  assert (Ex : wire_octets p1 ++ x = wire_octets p2) by congruence. rewrite O2 in B2.
  destruct (wires_unique 6 6 rfc_padding p1 p2 x P1 P2 B2 Ex) as (p3 & -> & Ex3).
  unfold reprs in I2. rewrite map_app in I2. fold (reprs p1) (reprs p3) in I2. rewrite interp_all_app, I1 in I2.
  destruct (interp_all 4294967295 d1 (reprs p3)) as [[d3 h3]|] eqn:I3; [|discriminate I2]. injection I2 as <- <-.
  split; [now exists h3|]. intros ->. assert (p3 = []) as ->.
  { destruct p3 as [|[b r] p3]; [reflexivity|exfalso]. apply Forall_app in P2. destruct P2 as [_ P3]. inversion P3 as [|? ? W3 _]; subst.
    cbn [fst snd] in W3. pose proof (repr_wire_nonempty _ _ _ _ W3) as L. apply (f_equal (@List.length N)) in Ex3.
    unfold wire_octets in Ex3. cbn [map concat fst] in Ex3. rewrite app_length in Ex3. cbn [List.length] in Ex3. lia. }
  cbn in I3. injection I3 as -> <-. split; [reflexivity|now rewrite app_nil_r].
Qed.

(* One field: the octets are those of another field exactly when the same representation is
   chosen for both. *)
Theorem fields_same m m' t f1 f2 t1 t2 b1 b2 : wf t -> input_ok f1 -> input_ok f2 ->
  hencode m t f1 [] = ((t1, b1), Ok tt) -> hencode m' t f2 [] = ((t2, b2), Ok tt) ->
  (b1 = b2 <-> exists r, chosen (inner t) f1 r /\ chosen (inner t) f2 r).
Proof.
  intros W F1 F2 E1 E2.
  destruct (hencode_cases m t f1 [] W F1) as [[_ X]|(r1 & C1 & [[S1 X]|[_ X]])]; [rewrite X in E1; discriminate| |destruct X as (? & ? & ? & X & _); rewrite X in E1; discriminate].
  destruct X as (c1 & d1 & h1 & X1 & _ & _ & W1 & _ & B1). rewrite E1 in X1. injection X1 as _ X1. cbn [app] in X1. subst c1.
  destruct (hencode_cases m' t f2 [] W F2) as [[_ X]|(r2 & C2 & [[S2 X]|[_ X]])]; [rewrite X in E2; discriminate| |destruct X as (? & ? & ? & X & _); rewrite X in E2; discriminate].
  destruct X as (c2 & d2 & h2 & X2 & _ & _ & W2 & _ & B2). rewrite E2 in X2. injection X2 as _ X2. cbn [app] in X2. subst c2.
  split.
  - intros <-. exists r1. split; [exact C1|].
    destruct (repr_wire_unique_at 6 6 rfc_padding b1 r1 [] b1 r2 [] W1 W2) as (_ & -> & _); [now rewrite app_nil_r|reflexivity|exact C2].
  - intros (r & G1 & G2).
    assert (Q1 : strings_within U32_MAX r \/ ~ strings_within U32_MAX r) by (destruct (within_dec U32_MAX r); auto).
    assert (Q : strings_within U32_MAX r).
    { destruct Q1 as [Q|Q]; [exact Q|exfalso]. destruct (hencode_overflow m t f1 [] r W F1 G1 Q) as (? & ? & ? & X & _). rewrite X in E1. discriminate. }
    destruct (hencode_ok m t f1 [] r W F1 G1 Q) as (c1 & ? & ? & X1 & _ & _ & V1 & _). rewrite E1 in X1. injection X1 as _ X1. cbn [app] in X1. subst c1.
    destruct (hencode_ok m' t f2 [] r W F2 G2 Q) as (c2 & ? & ? & X2 & _ & _ & V2 & _). rewrite E2 in X2. injection X2 as _ X2. cbn [app] in X2. subst c2.
    apply (wire_min_unique 6 6 b1 b2 r V1 V2).
    + exact (hencode_min m t f1 [] r b1 t1 W F1 G1 Q E1).
    + exact (hencode_min m' t f2 [] r b2 t2 W F2 G2 Q E2 6%nat b1 V1).
Qed.
