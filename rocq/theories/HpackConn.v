(* A connection: one encoder, one decoder, and the octets between them.

   The environment below is not code of the repository: it is a caller that uses
   Encoder::encode / update_max_dynamic_size on one side and Decoder::decode /
   decode_exact / set_max_dynamic_size on the other, in any order.  Its steps are the
   modelled API calls of HpackModel.v. *)
From Verif Require Import Base HuffModel HuffSpec Leb HpackStatic HpackModel HpackSpec HpackApi HpackInt HpackStr HpackTab HpackDec HpackEnc HpackDerived HpackMore.
Open Scope list_scope.
Open Scope N_scope.

(* ------------------------------------------------------------------ *)
(* Specification vocabulary. *)

Inductive event :=
| EvSend (o : op)        (* the encoder is called with a fresh vector, which is put on the wire *)
| EvDeliver (k : nat)    (* the first k vectors on the wire arrive in the receive buffer *)
| EvDecode               (* Decoder::decode on the receive buffer *)
| EvExact (cap : nat)    (* Decoder::decode_exact, into a vector of this capacity *)
| EvLimit (n : N).       (* Decoder::set_max_dynamic_size *)

Record conn := mkConn {
  c_enc : table;                 (* the encoder *)
  c_wire : list (list N);        (* vectors on the wire, oldest first *)
  c_rx : list N;                 (* the receive buffer *)
  c_dec : decoder;
  c_got : list out_header        (* everything decoded so far *)
}.

(* One event; the second component is the verdict of a decoder call. *)
Definition conn_step (m m' : mode) (c : conn) (ev : event) : conn * list (outcome dec_error N) :=
  match ev with
  | EvSend o =>
      let '((t, bs), _) := match o with
                           | Send f => hencode m (c_enc c) f []
                           | Resize n => encoder_update_max m (c_enc c) n []
                           end in
      (mkConn t (c_wire c ++ [bs]) (c_rx c) (c_dec c) (c_got c), [])
  | EvDeliver k =>
      (mkConn (c_enc c) (skipn k (c_wire c)) (c_rx c ++ concat (firstn k (c_wire c))) (c_dec c) (c_got c), [])
  | EvDecode =>
      let '((d, rest, got), v) := hdecode m' (c_dec c) (c_rx c) (c_got c) in
      (mkConn (c_enc c) (c_wire c) rest d got, [v])
  | EvExact cap =>
      let '((d, rest, got), v) := hdecode_exact m' cap (c_dec c) (c_rx c) (c_got c) in
      (mkConn (c_enc c) (c_wire c) rest d got, [v])
  | EvLimit n => (mkConn (c_enc c) (c_wire c) (c_rx c) (decoder_set_max (c_dec c) n) (c_got c), [])
  end.

Fixpoint conn_run (m m' : mode) (c : conn) (evs : list event) : conn * list (outcome dec_error N) :=
  match evs with
  | [] => (c, [])
  | ev :: evs' =>
      let '(c1, v) := conn_step m m' c ev in
      let '(c2, vs) := conn_run m m' c1 evs' in (c2, v ++ vs)
  end.

(* The encoder calls of a schedule, in order. *)
Fixpoint sent (evs : list event) : list op :=
  match evs with
  | [] => []
  | EvSend o :: evs' => o :: sent evs'
  | _ :: evs' => sent evs'
  end.

(* The headers these calls transmit, and the table they leave (HpackApi.v). *)
Definition headers (d : dyn) (ops : list op) : list out_header := snd (fst (meaning d ops)).
Definition table_after (d : dyn) (ops : list op) : dyn := fst (fst (meaning d ops)).

Definition conn_start (t : table) (d : decoder) : conn := mkConn t [] [] d [].

(* ------------------------------------------------------------------ *)
(* decode_exact on what an encoder wrote. *)
Definition count_ok (rs : list (outcome enc_error unit)) : nat :=
  List.length (filter (fun r => match r with Ok _ => true | _ => false end) rs).

Definition reads_some (cap : nat) (m : mode) (d : decoder) (t : table) (ops : list op)
    (out : list N) (dst0 : list out_header) (x : dec_state * outcome dec_error N) : Prop :=
  exists ops1 ops2 t1 out1 rs1 rest v,
    ops = ops1 ++ ops2 /\ run_ops m t [] ops1 = (t1, out1, rs1) /\ out = out1 ++ rest /\
    x = ((set_table d t1, rest, dst0 ++ headers (abs t) ops1), v) /\
    ((exists n, v = Ok n) /\ (ops2 = [] \/ count_ok rs1 = cap) \/
     exists e o ops3, v = Err e /\ ops2 = o :: ops3 /\ ~ readable (dlimit d) (inner t1) o /\
       (e = DIntegerOverflow \/ e = DInvalidMaxDynamicSize /\ exists n, o = Resize n /\ dlimit d < n)).

Lemma exact_step m cap d bs r rest d1 h dst : wf (dtable d) -> bytes (bs ++ rest) ->
  repr_wire 5 code_padding bs r -> interp (dlimit d) (abs (dtable d)) r = inl (d1, h) -> wf (conc d1) ->
  exists k, hdecode_exact m (S cap) d (bs ++ rest) dst =
    (fst (hdecode_exact m cap (set_table d (conc d1)) rest (dst ++ h)),
     add_count k (snd (hdecode_exact m cap (set_table d (conc d1)) rest (dst ++ h)))).
Proof.
  intros Hw Hb Hr Hi Hw1.
  assert (Hb2 : bytes rest) by (apply bytes_app in Hb; tauto).
  destruct (hdecode_exact_total m cap (set_table d (conc d1)) rest (dst ++ h) Hw1 Hb2)
    as (prs & rest' & d' & hs & s & E & Hp & Hl & Hia & Hs & Hw' & E2).
  cbn [dlimit dtable set_table] in *. rewrite abs_conc in Hia. subst rest.
  pose proof (hdecode_exact_ok m (S cap) d ((bs, r) :: prs) rest' d' (h ++ hs) s dst Hw) as H.
  unfold wire_octets in H, Hb. cbn [map concat fst] in H. fold (wire_octets prs) in H, Hb. rewrite <- app_assoc in H.
  specialize (H Hb). cbn [reprs map snd interp_all] in H. rewrite Hi in H. fold (reprs prs) in H. rewrite Hia in H.
  assert (Hp' : wires 5 code_padding ((bs, r) :: prs)) by (constructor; assumption).
  specialize (H Hp' eq_refl). rewrite H.
  - exists (counted [(bs, r)]). rewrite E2. cbn [fst snd]. rewrite app_assoc.
    destruct s as [|[]|]; cbn [stop_outcome fault_outcome add_count]; try reflexivity.
    replace (counted ((bs, r) :: prs)) with (counted [(bs, r)] + counted prs); [reflexivity|].
    unfold counted. cbn [fold_right]. lia.
  - cbn [List.length]. destruct Hs as [[<- ->]|[Hlt He]]; [left; auto|right; split; [lia|exact He]].
Qed.

Lemma exact_stop m cap d rest s dst : wf (dtable d) -> bytes rest -> ends (dlimit d) (abs (dtable d)) rest s ->
  hdecode_exact m (S cap) d rest dst = ((d, rest, dst), stop_outcome s 0).
Proof.
  intros Hw Hb He.
  pose proof (hdecode_exact_ok m (S cap) d [] rest (abs (dtable d)) [] s dst Hw Hb (Forall_nil _) eq_refl
    (or_intror (conj (Nat.lt_0_succ _) He))) as H.
  cbn in H. rewrite app_nil_r, set_table_same in H by exact Hw. exact H.
Qed.

Lemma exact_zero m d rest dst : wf (dtable d) -> bytes rest ->
  hdecode_exact m 0 d rest dst = ((d, rest, dst), Ok 0).
Proof.
  intros Hw Hb.
  pose proof (hdecode_exact_ok m 0 d [] rest (abs (dtable d)) [] Done dst Hw Hb (Forall_nil _) eq_refl
    (or_introl (conj eq_refl eq_refl))) as H.
  cbn in H. rewrite app_nil_r, set_table_same in H by exact Hw. exact H.
Qed.

Lemma exact_rest m cap d buf dst d1 rest dst1 o : wf (dtable d) -> bytes buf ->
  hdecode_exact m cap d buf dst = ((d1, rest, dst1), o) -> (List.length rest <= List.length buf)%nat.
Proof.
  intros Hw Hb H. destruct (hdecode_exact_total m cap d buf dst Hw Hb) as (prs & r & d' & hs & s & E1 & _ & _ & _ & _ & _ & E2).
  rewrite H in E2. injection E2 as _ -> _ _. rewrite E1, app_length. lia.
Qed.

(* decode is decode_exact with room for everything *)
Lemma decode_is_exact m d buf dst : wf (dtable d) -> bytes buf ->
  hdecode m d buf dst = hdecode_exact m (S (List.length buf)) d buf dst.
Proof.
  intros Hw Hb. destruct (hdecode_total m d buf dst Hw Hb) as (prs & rest & d' & hs & s & E & Hp & Hi & He & _ & E2).
  rewrite E2. symmetry. subst buf.
  apply hdecode_exact_ok; auto. right. split; [|exact He].
  clear - Hp. rewrite app_length.
  enough (List.length prs <= List.length (wire_octets prs))%nat by lia.
  induction Hp as [|[b r] prs Hr Hp IH]; [cbn; lia|].
  unfold wire_octets in *. cbn [map concat fst List.length] in *. rewrite app_length.
  cbn [fst snd] in Hr. apply repr_wire_nonempty in Hr. lia.
Qed.

Lemma headers_nil d : headers d [] = [].
Proof. reflexivity. Qed.
Lemma headers_cons d o ops : headers d (o :: ops) =
  snd (fst (op_meaning d o)) ++ headers (fst (fst (op_meaning d o))) ops.
Proof.
  unfold headers. rewrite meaning_cons. destruct (op_meaning d o) as [[d1 h] r]. cbn [fst snd].
  destruct (meaning d1 ops) as [[? ?] ?]. reflexivity.
Qed.

Lemma set_table_self d : set_table d (dtable d) = d.
Proof. destruct d; reflexivity. Qed.

Theorem exact_reads m m' ops : forall cap d t dst0, wf t -> dtable d = t -> Forall op_typed ops ->
  no_overflow (snd (run_ops m t [] ops)) ->
  exists t' out, run_ops m t [] ops = (t', out, snd (meaning (abs t) ops)) /\
    wf t' /\ bytes out /\ reads_some cap m d t ops out dst0 (hdecode_exact m' cap d out dst0).
Proof.
  induction ops as [|o ops IH]; intros cap d t dst0 Hw Hd Hty Hno.
  - exists t, []. split; [reflexivity|]. split; [exact Hw|]. split; [constructor|].
    exists [], [], t, [], [], [], (Ok 0). repeat (split; [reflexivity|]). split.
    + subst t. rewrite headers_nil, app_nil_r, set_table_self. destruct cap.
      * apply exact_zero; [exact Hw|constructor].
      * apply (exact_stop m' cap d [] Done dst0); [exact Hw|constructor|constructor].
    + left. split; [eauto|]. left. reflexivity.
  - inversion Hty as [|? ? T1 T2]; subst. rewrite run_ops_cons in *.
    assert (N1 : snd (op_step m (dtable d) [] o) <> Err EIntegerOverflow).
    { intros E. destruct (op_step m (dtable d) [] o) as [[t1 dst1] r1]. cbn in E. subst r1. apply Hno.
      destruct (run_ops m t1 dst1 ops) as [[? ?] ?]. left. reflexivity. }
    destruct (op_step_ok m (dtable d) [] o Hw T1 N1) as (d1 & h & res & Em & Hw1 & C).
    rewrite meaning_cons, Em.
    destruct C as [(E & -> & -> & ->)|(-> & bs & r & E & Hb & H6 & Hi & H5 & Ho)]; rewrite E in *.
    + rewrite conc_abs in * by exact Hw.
      assert (N2 : no_overflow (snd (run_ops m (dtable d) [] ops))).
      { intros I. apply Hno. destruct (run_ops m (dtable d) [] ops) as [[? ?] ?]. right. exact I. }
      destruct (IH cap d (dtable d) dst0 Hw eq_refl T2 N2) as (t' & out & Hrun & Hw' & Hbo & Hdel).
      rewrite Hrun.
      exists t', out. split; [destruct (meaning (abs (dtable d)) ops) as [[? ?] ?]; reflexivity|]. split; [exact Hw'|]. split; [exact Hbo|].
      destruct Hdel as (ops1 & ops2 & t1 & out1 & rs1 & rest & v & E1 & E2 & E3 & Hx & Hv).
      exists (o :: ops1), ops2, t1, out1, (Err EInvalidIndex :: rs1), rest, v.
      split; [rewrite E1; reflexivity|]. split; [rewrite run_ops_cons, E, E2; reflexivity|].
      split; [exact E3|]. split; [|exact Hv].
      rewrite Hx, headers_cons, Em. reflexivity.
    + cbn [app] in E.
      destruct (run_ops_same m m ops (conc d1) ([] ++ bs) [] Hw1 T2) as (t' & out & rs & R1 & R2).
      assert (N2 : no_overflow (snd (run_ops m (conc d1) [] ops))).
      { intros I. apply Hno. rewrite R1. rewrite R2 in I. right. exact I. }
      assert (Hwo : wf t' /\ bytes out /\ rs = snd (meaning d1 ops)).
      { destruct (IH 0%nat (set_table d (conc d1)) (conc d1) (dst0 ++ h) Hw1 eq_refl T2 N2) as (t'' & out'' & Hrun & Hw' & Hbo & _).
        rewrite R2 in Hrun. injection Hrun as <- <- ->. rewrite abs_conc. auto. }
      destruct Hwo as (Hw' & Hbo & ->). rewrite R1.
      exists t', (bs ++ out). split; [destruct (meaning d1 ops) as [[? ?] ?]; reflexivity|]. split; [exact Hw'|].
      assert (Hbb : bytes (bs ++ out)) by (apply bytes_app; auto). split; [exact Hbb|].
      destruct cap as [|cap].
      { exists [], (o :: ops), (dtable d), [], [], (bs ++ out), (Ok 0). repeat (split; [reflexivity|]). split.
        - rewrite headers_nil, app_nil_r, set_table_self. apply exact_zero; assumption.
        - left. split; [eauto|]. right. reflexivity. }
      destruct (IH cap (set_table d (conc d1)) (conc d1) (dst0 ++ h) Hw1 eq_refl T2 N2) as (t'' & out'' & Hrun & _ & _ & Hdel).
      rewrite R2 in Hrun. injection Hrun as <- <- _. cbn [dlimit set_table] in Hdel.
      (* continue after this representation *)
      assert (Hcont : repr_wire 5 code_padding bs r -> interp (dlimit d) (abs (dtable d)) r = inl (d1, h) ->
                reads_some (S cap) m d (dtable d) (o :: ops) (bs ++ out) dst0 (hdecode_exact m' (S cap) d (bs ++ out) dst0)).
      { intros W I. destruct (exact_step m' cap d bs r out d1 h dst0 Hw Hbb W I Hw1) as (k & ->).
        destruct Hdel as (ops1 & ops2 & t1 & out1 & rs1 & rest & v & E1 & E2 & E3 & Hx & Hv). rewrite Hx.
        destruct (run_ops_same m m ops1 (conc d1) bs [] Hw1) as (t1' & out1' & rs1' & Q1 & Q2).
        { rewrite E1 in T2. apply Forall_app in T2. tauto. }
        rewrite E2 in Q2. injection Q2 as <- <- <-.
        exists (o :: ops1), ops2, t1, (bs ++ out1), (Ok tt :: rs1), rest, (add_count k v).
        split; [rewrite E1; reflexivity|]. split; [rewrite run_ops_cons, E, Q1; reflexivity|].
        split; [rewrite E3, app_assoc; reflexivity|]. split.
        - rewrite headers_cons, Em, abs_conc. cbn [fst snd]. rewrite <- app_assoc. reflexivity.
        - destruct Hv as [[(n & ->) Hc]|(e & o' & ops3 & -> & Hv)].
          + left. split; [eexists; reflexivity|]. destruct Hc as [Hc|Hc]; [auto|right]. cbn. f_equal. exact Hc.
          + right. exists e, o', ops3. split; [reflexivity|]. exact Hv. }
      (* stop here *)
      assert (Hstop : forall s, ends (dlimit d) (abs (dtable d)) (bs ++ out) s ->
                (s = Fault Long \/ s = Refused BadSize /\ exists n, o = Resize n /\ dlimit d < n) ->
                reads_some (S cap) m d (dtable d) (o :: ops) (bs ++ out) dst0 (hdecode_exact m' (S cap) d (bs ++ out) dst0)).
      { intros s Hends Hs.
        pose proof (exact_stop m' cap d (bs ++ out) s dst0 Hw Hbb Hends) as Hx.
        assert (Hnr : ~ readable (dlimit d) (inner (dtable d)) o).
        { intros Hr.
          assert (Hrw : resize_within (dlimit d) o) by (destruct o; [exact I|exact (proj1 Hr)]).
          pose proof (repr_wire_pad 5 rfc_padding code_padding bs r rfc_code_padding (H5 _ Hr)) as W.
          destruct (exact_step m' cap d bs r out d1 h dst0 Hw Hbb W (Hi _ Hrw) Hw1) as (k & Hy).
          destruct (hdecode_exact m' cap (set_table d (conc d1)) out (dst0 ++ h)) as [[[d2 rest2] dst2] o2] eqn:E2.
          cbn [fst snd] in Hy. rewrite Hx in Hy. injection Hy as _ Hrest _ _.
          pose proof (exact_rest m' cap (set_table d (conc d1)) out (dst0 ++ h) _ _ _ _ Hw1 Hbo E2) as L.
          pose proof (repr_wire_nonempty _ _ _ _ W) as L2. rewrite <- Hrest, app_length in L. lia. }
        exists [], (o :: ops), (dtable d), [], [], (bs ++ out).
        exists (Err (match s with Refused _ => DInvalidMaxDynamicSize | _ => DIntegerOverflow end)).
        repeat (split; [reflexivity|]). split.
        - rewrite Hx. rewrite headers_nil, app_nil_r, set_table_self.
          destruct Hs as [->|[-> _]]; reflexivity.
        - right. eexists _, o, ops. split; [reflexivity|]. split; [reflexivity|]. split; [exact Hnr|].
          destruct Hs as [->|[-> Hs]]; auto. }
      destruct (interp (dlimit d) (abs (dtable d)) r) as [[d1' h1']|e] eqn:I.
      * destruct (repr6_long (dlimit d) (abs (dtable d)) bs r _ out H6 I) as [W|[(e & W)|W]].
        -- apply Hcont; [exact W|]. rewrite <- I. apply Hi.
           destruct o as [f|n]; [exact Logic.I|]. subst r. cbn [interp] in I. cbn [resize_within].
           destruct (N.leb_spec n (dlimit d)); [assumption|discriminate I].
        -- discriminate W.
        -- apply (Hstop (Fault Long)); [constructor; exact W|auto].
      * destruct o as [f|n].
        { rewrite (Hi (dlimit d) Logic.I) in I. discriminate I. }
        subst r. cbn [interp] in I. destruct (N.leb_spec n (dlimit d)) as [L|L]; [discriminate I|].
        injection I as <-. inversion H6 as [| | |? ? H6']; subst.
        destruct (wire6_long 5 1 bs n out p5 H6') as [W|W].
        -- apply (Hstop (Refused BadSize)).
           ++ apply (ends_refused (dlimit d) (abs (dtable d)) bs (RSize n) out); [constructor; exact W|].
              cbn [interp]. apply N.leb_gt in L. rewrite L. reflexivity.
           ++ right. eauto.
        -- apply (Hstop (Fault Long)); [constructor; apply rf_size; constructor; exact W|auto].
Qed.

(* ------------------------------------------------------------------ *)
(* Sequences of calls. *)
Lemma run_ops_app m a : forall b t dst, run_ops m t dst (a ++ b) =
  let '(t1, dst1, rs1) := run_ops m t dst a in
  let '(t2, dst2, rs2) := run_ops m t1 dst1 b in (t2, dst2, rs1 ++ rs2).
Proof.
  induction a as [|o a IH]; intros b t dst.
  - cbn [app run_ops]. destruct (run_ops m t dst b) as [[? ?] ?]. reflexivity.
  - rewrite <- app_comm_cons, !run_ops_cons. destruct (op_step m t dst o) as [[t1 dst1] r]. rewrite IH.
    destruct (run_ops m t1 dst1 a) as [[t2 dst2] rs2]. destruct (run_ops m t2 dst2 b) as [[t3 dst3] rs3]. reflexivity.
Qed.

Lemma run_ops_app0 m a b t t1 out1 rs1 t2 out2 rs2 : wf t1 -> Forall op_typed b ->
  run_ops m t [] a = (t1, out1, rs1) -> run_ops m t1 [] b = (t2, out2, rs2) ->
  run_ops m t [] (a ++ b) = (t2, out1 ++ out2, rs1 ++ rs2).
Proof.
  intros Hw Hb E1 E2. rewrite run_ops_app, E1.
  destruct (run_ops_same m m b t1 out1 [] Hw Hb) as (t' & out & rs & R1 & R2).
  rewrite E2 in R2. injection R2 as <- <- <-. rewrite R1. reflexivity.
Qed.

Lemma meaning_app a : forall b d, meaning d (a ++ b) =
  let '(d1, h1, r1) := meaning d a in let '(d2, h2, r2) := meaning d1 b in (d2, h1 ++ h2, r1 ++ r2).
Proof.
  induction a as [|o a IH]; intros b d.
  - cbn [app meaning]. destruct (meaning d b) as [[? ?] ?]. reflexivity.
  - rewrite <- app_comm_cons, !meaning_cons. destruct (op_meaning d o) as [[d1 h] r]. rewrite IH.
    destruct (meaning d1 a) as [[d2 h2] r2]. destruct (meaning d2 b) as [[d3 h3] r3]. rewrite app_assoc. reflexivity.
Qed.

Lemma headers_app d a b : headers d (a ++ b) = headers d a ++ headers (table_after d a) b.
Proof.
  unfold headers, table_after. rewrite meaning_app. destruct (meaning d a) as [[d1 h1] r1]. cbn [fst snd].
  destruct (meaning d1 b) as [[? ?] ?]. reflexivity.
Qed.

(* A run without IntegerOverflow. *)
Definition clean (m : mode) (t : table) (ops : list op) : Prop :=
  Forall op_typed ops /\ no_overflow (snd (run_ops m t [] ops)).

Lemma clean_run m t ops : wf t -> clean m t ops ->
  exists t' out, run_ops m t [] ops = (t', out, snd (meaning (abs t) ops)) /\ wf t' /\ bytes out /\
    abs t' = table_after (abs t) ops.
Proof.
  intros Hw [Hty Hno].
  destruct (exact_reads m m ops 0 (mkDec FiveBits 0 t) t [] Hw eq_refl Hty Hno) as (t' & out & R & Hw' & Hb & _).
  exists t', out. split; [exact R|]. split; [exact Hw'|]. split; [exact Hb|].
  destruct (session_wide m (2 ^ 32) ops t [] Hw Hty) as (out' & prs & d' & hs & R' & Em & _).
  - revert Hty. apply Forall_impl. intros [f|n]; cbn; [auto|lia].
  - exact Hno.
  - rewrite R in R'. injection R' as -> _. rewrite abs_conc. unfold table_after. rewrite Em. reflexivity.
Qed.

Lemma clean_app m t a b : wf t -> clean m t (a ++ b) ->
  clean m t a /\ forall t1 out1 rs1, run_ops m t [] a = (t1, out1, rs1) -> clean m t1 b.
Proof.
  intros Hw [Hty Hno]. apply Forall_app in Hty as [Ha Hb].
  destruct (run_ops m t [] a) as [[t1 out1] rs1] eqn:E1.
  assert (Hw1 : wf t1).
  { pose proof (run_ops_wf m a t [] Hw Ha) as H. rewrite E1 in H. tauto. }
  destruct (run_ops m t1 [] b) as [[t2 out2] rs2] eqn:E2.
  rewrite (run_ops_app0 m a b t t1 out1 rs1 t2 out2 rs2 Hw1 Hb E1 E2) in Hno. cbn [snd] in Hno.
  split.
  - split; [exact Ha|]. rewrite E1. intros I. apply Hno, in_or_app. auto.
  - intros ? ? ? E. injection E as <- <- <-. split; [exact Hb|]. rewrite E2. intros I. apply Hno, in_or_app. auto.
Qed.

(* The vectors the encoder makes, one per call. *)
Fixpoint blocks (m : mode) (t : table) (ops : list op) : list (list N) :=
  match ops with
  | [] => []
  | o :: ops' => let '((t1, bs), _) := op_step m t [] o in bs :: blocks m t1 ops'
  end.

Lemma op_step_wf m t o t1 bs r : wf t -> op_typed o -> op_step m t [] o = ((t1, bs), r) -> wf t1.
Proof.
  intros Hw Ho E. pose proof (run_ops_wf m [o] t [] Hw (Forall_cons _ Ho (Forall_nil _))) as H.
  rewrite run_ops_cons, E in H. cbn in H. tauto.
Qed.

Lemma blocks_app m a : forall b t t1 out rs, wf t -> Forall op_typed a -> run_ops m t [] a = (t1, out, rs) ->
  blocks m t (a ++ b) = blocks m t a ++ blocks m t1 b.
Proof.
  induction a as [|o a IH]; intros b t t1 out rs Hw Ha E.
  - cbn in E. injection E as <- _ _. reflexivity.
  - inversion Ha as [|? ? A1 A2]; subst. rewrite run_ops_cons in E. cbn [app blocks].
    destruct (op_step m t [] o) as [[t2 bs] r] eqn:E0.
    pose proof (op_step_wf m t o t2 bs r Hw A1 E0) as Hw2.
    destruct (run_ops_same m m a t2 bs [] Hw2 A2) as (t' & out' & rs' & R1 & R2). rewrite R1 in E.
    injection E as -> _ _. rewrite (IH b t2 t1 out' rs' Hw2 A2 R2). reflexivity.
Qed.

Lemma blocks_concat m ops : forall t t1 out rs, wf t -> Forall op_typed ops -> run_ops m t [] ops = (t1, out, rs) ->
  concat (blocks m t ops) = out.
Proof.
  induction ops as [|o a IH]; intros t t1 out rs Hw Ha E.
  - cbn in E. injection E as _ <- _. reflexivity.
  - inversion Ha as [|? ? A1 A2]; subst. rewrite run_ops_cons in E. cbn [blocks].
    destruct (op_step m t [] o) as [[t2 bs] r] eqn:E0.
    pose proof (op_step_wf m t o t2 bs r Hw A1 E0) as Hw2.
    destruct (run_ops_same m m a t2 bs [] Hw2 A2) as (t' & out' & rs' & R1 & R2). rewrite R1 in E.
    injection E as -> <- _. cbn [concat]. rewrite (IH t2 t1 out' rs' Hw2 A2 R2). reflexivity.
Qed.

Lemma blocks_firstn m k : forall ops t, firstn k (blocks m t ops) = blocks m t (firstn k ops).
Proof.
  induction k as [|k IH]; intros [|o ops] t; try reflexivity.
  cbn [firstn blocks]. destruct (op_step m t [] o) as [[t1 bs] r]. cbn [firstn]. rewrite IH. reflexivity.
Qed.

(* ------------------------------------------------------------------ *)
(* The invariant: [done] calls are decoded, [q] are in the receive buffer, [w] are on
   the wire. *)
Definition conn_inv (m : mode) (t0 : table) (ops : list op) (c : conn) : Prop :=
  exists done q w t1 out1 rs1 t2 rs2 out3 rs3,
    ops = done ++ q ++ w /\
    run_ops m t0 [] done = (t1, out1, rs1) /\ dtable (c_dec c) = t1 /\ c_got c = headers (abs t0) done /\
    run_ops m t1 [] q = (t2, c_rx c, rs2) /\
    run_ops m t2 [] w = (c_enc c, out3, rs3) /\ c_wire c = blocks m t2 w.

Lemma inv_wf m t0 ops c : wf t0 -> clean m t0 ops -> conn_inv m t0 ops c -> wf (dtable (c_dec c)) /\ bytes (c_rx c) /\ wf (c_enc c).
Proof.
  intros Hw Hc (done & q & w & t1 & out1 & rs1 & t2 & rs2 & out3 & rs3 & -> & E1 & E2 & _ & E3 & E4 & _).
  destruct (clean_app m t0 done (q ++ w) Hw Hc) as [C1 C2]. specialize (C2 _ _ _ E1).
  destruct (clean_run m t0 done Hw C1) as (t' & ? & R & W1 & _). rewrite E1 in R. injection R as <- _ _.
  destruct (clean_app m t1 q w W1 C2) as [C3 C4]. specialize (C4 _ _ _ E3).
  destruct (clean_run m t1 q W1 C3) as (t' & ? & R & W2 & B2 & _). rewrite E3 in R. injection R as <- <- _.
  destruct (clean_run m t2 w W2 C4) as (t' & ? & R & W3 & _). rewrite E4 in R. injection R as <- _ _.
  rewrite E2. auto.
Qed.

(* What a decoder call can answer, and why. *)
Definition verdict_ok (v : outcome dec_error N) : Prop :=
  (exists n, v = Ok n) \/ v = Err DIntegerOverflow \/ v = Err DInvalidMaxDynamicSize.

Lemma inv_exact m m' t0 ops c cap : wf t0 -> clean m t0 ops -> conn_inv m t0 ops c ->
  let '((d, rest, got), v) := hdecode_exact m' cap (c_dec c) (c_rx c) (c_got c) in
  conn_inv m t0 ops (mkConn (c_enc c) (c_wire c) rest d got) /\ verdict_ok v.
Proof.
  intros Hw Hc (done & q & w & t1 & out1 & rs1 & t2 & rs2 & out3 & rs3 & -> & E1 & E2 & E3 & E4 & E5 & E6).
  destruct (clean_app m t0 done (q ++ w) Hw Hc) as [C1 C2]. specialize (C2 _ _ _ E1).
  destruct (clean_run m t0 done Hw C1) as (t' & ? & R & W1 & _ & A1). rewrite E1 in R. injection R as <- _ _.
  destruct (clean_app m t1 q w W1 C2) as [C3 C4].
  destruct (exact_reads m m' q cap (c_dec c) t1 (c_got c) W1 E2 (proj1 C3) (proj2 C3)) as (t' & out & R & W2 & B2 & Hr).
  rewrite E4 in R. injection R as <- <- _.
  destruct Hr as (q1 & q2 & t3 & o3 & rs4 & rest & v & -> & Q1 & Q2 & Hx & Hv).
  rewrite Hx. destruct (clean_app m t1 q1 q2 W1 C3) as [C5 C6]. specialize (C6 _ _ _ Q1).
  destruct (clean_run m t1 q1 W1 C5) as (t' & ? & R & W3 & _). rewrite Q1 in R. injection R as <- <- ->.
  split.
  - destruct (clean_run m t3 q2 W3 C6) as (t' & o' & R & W4 & B4 & _).
    pose proof (run_ops_app0 m q1 q2 t1 _ _ _ _ _ _ W3 (proj1 C6) Q1 R) as R2.
    rewrite E4 in R2. injection R2 as <- Er _. rewrite Q2 in Er. apply app_inv_head in Er. subst o'.
    exists (done ++ q1), q2, w, t3, (out1 ++ o3), (rs1 ++ snd (meaning (abs t1) q1)), t2, (snd (meaning (abs t3) q2)), out3, rs3.
    split; [rewrite <- !app_assoc; reflexivity|].
    split; [exact (run_ops_app0 m done q1 t0 _ _ _ _ _ _ W1 (proj1 C5) E1 Q1)|].
    split; [reflexivity|]. split; [cbn [c_got]; rewrite E3, headers_app, <- A1; reflexivity|].
    split; [exact R|]. split; [exact E5|exact E6].
  - destruct Hv as [[Hn _]|(e & o & q3 & -> & _ & _ & [->|[-> _]])]; [left; exact Hn|right; auto|right; auto].
Qed.

Lemma inv_decode m m' t0 ops c : wf t0 -> clean m t0 ops -> conn_inv m t0 ops c ->
  let '((d, rest, got), v) := hdecode m' (c_dec c) (c_rx c) (c_got c) in
  conn_inv m t0 ops (mkConn (c_enc c) (c_wire c) rest d got) /\ verdict_ok v.
Proof.
  intros Hw Hc Hi. destruct (inv_wf m t0 ops c Hw Hc Hi) as (W1 & B & _).
  rewrite (decode_is_exact m' (c_dec c) (c_rx c) (c_got c) W1 B). exact (inv_exact m m' t0 ops c _ Hw Hc Hi).
Qed.

Lemma inv_deliver m t0 ops c k : wf t0 -> clean m t0 ops -> conn_inv m t0 ops c ->
  conn_inv m t0 ops (mkConn (c_enc c) (skipn k (c_wire c)) (c_rx c ++ concat (firstn k (c_wire c))) (c_dec c) (c_got c)).
Proof.
  intros Hw Hc (done & q & w & t1 & out1 & rs1 & t2 & rs2 & out3 & rs3 & -> & E1 & E2 & E3 & E4 & E5 & E6).
  destruct (clean_app m t0 done (q ++ w) Hw Hc) as [C1 C2]. specialize (C2 _ _ _ E1).
  destruct (clean_run m t0 done Hw C1) as (t' & ? & R & W1 & _ & _). rewrite E1 in R. injection R as <- _ _.
  destruct (clean_app m t1 q w W1 C2) as [C3 C4]. specialize (C4 _ _ _ E4).
  destruct (clean_run m t1 q W1 C3) as (t' & ? & R & W2 & _ & _). rewrite E4 in R. injection R as <- _ _.
  rewrite <- (firstn_skipn k w) in C4, E5, E6.
  set (w1 := firstn k w) in *. set (w2 := skipn k w) in *.
  destruct (clean_app m t2 w1 w2 W2 C4) as [C5 C6].
  destruct (clean_run m t2 w1 W2 C5) as (t3 & o3 & R3 & W3 & B3 & _). specialize (C6 _ _ _ R3).
  destruct (clean_run m t3 w2 W3 C6) as (t4 & o4 & R4 & W4 & B4 & _).
  rewrite (run_ops_app0 m w1 w2 t2 _ _ _ _ _ _ W3 (proj1 C6) R3 R4) in E5. injection E5 as -> _ _.
  assert (Ef : firstn k (c_wire c) = blocks m t2 w1 /\ skipn k (c_wire c) = blocks m t3 w2).
  { assert (F : firstn k (c_wire c) = blocks m t2 w1).
    { rewrite E6. unfold w1 at 1, w2. rewrite firstn_skipn, blocks_firstn. reflexivity. }
    split; [exact F|].
    rewrite (blocks_app m w1 w2 t2 t3 o3 _ W2 (proj1 C5) R3) in E6.
    rewrite <- (firstn_skipn k (c_wire c)), F in E6 at 1. apply app_inv_head in E6. exact E6. }
  destruct Ef as [F1 F2]. rewrite F1, F2, (blocks_concat m w1 t2 t3 o3 _ W2 (proj1 C5) R3).
  exists done, (q ++ w1), w2, t1, out1, rs1, t3. eexists _, _, _.
  split; [rewrite <- (firstn_skipn k w), <- app_assoc; reflexivity|].
  split; [exact E1|]. split; [exact E2|]. split; [exact E3|].
  split; [cbn [c_rx]; exact (run_ops_app0 m q w1 t1 _ _ _ _ _ _ W2 (proj1 C5) E4 R3)|].
  split; [exact R4|reflexivity].
Qed.

Lemma inv_send m t0 ops c o t bs r : wf t0 -> clean m t0 (ops ++ [o]) -> conn_inv m t0 ops c ->
  op_step m (c_enc c) [] o = ((t, bs), r) ->
  conn_inv m t0 (ops ++ [o]) (mkConn t (c_wire c ++ [bs]) (c_rx c) (c_dec c) (c_got c)).
Proof.
  intros Hw Hc' Hi Eo. destruct (clean_app m t0 ops [o] Hw Hc') as [Hc Co].
  destruct Hi as (done & q & w & t1 & out1 & rs1 & t2 & rs2 & out3 & rs3 & -> & E1 & E2 & E3 & E4 & E5 & E6).
  destruct (clean_app m t0 done (q ++ w) Hw Hc) as [C1 C2]. specialize (C2 _ _ _ E1).
  destruct (clean_run m t0 done Hw C1) as (t' & ? & R & W1 & _ & _). rewrite E1 in R. injection R as <- _ _.
  destruct (clean_app m t1 q w W1 C2) as [C3 C4]. specialize (C4 _ _ _ E4).
  destruct (clean_run m t1 q W1 C3) as (t' & ? & R & W2 & _ & _). rewrite E4 in R. injection R as <- _ _.
  destruct (clean_run m t2 w W2 C4) as (t' & ? & R & W3 & _ & _). rewrite E5 in R. injection R as <- _ _.
  assert (To : Forall op_typed [o]) by (destruct Hc' as [T _]; apply Forall_app in T; tauto).
  assert (Ro : run_ops m (c_enc c) [] [o] = (t, bs, [r])) by (rewrite run_ops_cons, Eo; reflexivity).
  exists done, q, (w ++ [o]), t1, out1, rs1, t2, rs2, (out3 ++ bs), (rs3 ++ [r]).
  split; [rewrite !app_assoc; reflexivity|]. repeat (split; [assumption|]).
  split; [exact (run_ops_app0 m w [o] t2 _ _ _ _ _ _ W3 To E5 Ro)|].
  cbn [c_wire]. rewrite (blocks_app m w [o] t2 _ _ _ W2 (proj1 C4) E5), E6. cbn [blocks]. rewrite Eo. reflexivity.
Qed.

Lemma conn_run_app m m' a : forall b c, conn_run m m' c (a ++ b) =
  let '(c1, v1) := conn_run m m' c a in let '(c2, v2) := conn_run m m' c1 b in (c2, v1 ++ v2).
Proof.
  induction a as [|ev a IH]; intros b c; cbn [app conn_run].
  - destruct (conn_run m m' c b). reflexivity.
  - destruct (conn_step m m' c ev) as [c1 v]. rewrite IH. destruct (conn_run m m' c1 a) as [c2 v2].
    destruct (conn_run m m' c2 b) as [c3 v3]. rewrite app_assoc. reflexivity.
Qed.

Lemma sent_app a b : sent (a ++ b) = sent a ++ sent b.
Proof. induction a as [|[] a IH]; cbn; congruence. Qed.

Lemma conn_run_inv m m' t0 d0 evs : wf t0 -> dtable d0 = t0 -> clean m t0 (sent evs) ->
  let '(c, vs) := conn_run m m' (conn_start t0 d0) evs in conn_inv m t0 (sent evs) c /\ Forall verdict_ok vs.
Proof.
  intros Hw Hd. induction evs as [|ev evs IH] using rev_ind; intros Hc.
  - cbn. split; [|constructor]. exists [], [], [], t0, [], [], t0, [], [], []. cbn. auto 10.
  - rewrite sent_app in *. destruct (clean_app m t0 (sent evs) (sent [ev]) Hw Hc) as [Hc0 _]. specialize (IH Hc0).
    rewrite conn_run_app. destruct (conn_run m m' (conn_start t0 d0) evs) as [c vs]. destruct IH as [Hi Hv].
    cbn [conn_run]. destruct ev as [o|k| |cap|n]; cbn [conn_step sent] in *.
    + fold (op_step m (c_enc c) [] o). destruct (op_step m (c_enc c) [] o) as [[t bs] r] eqn:Eo.
      cbn [app]. rewrite app_nil_r. split; [|exact Hv]. exact (inv_send m t0 _ c o t bs r Hw Hc Hi Eo).
    + rewrite !app_nil_r. split; [|exact Hv]. exact (inv_deliver m t0 _ c k Hw Hc0 Hi).
    + rewrite app_nil_r. pose proof (inv_decode m m' t0 _ c Hw Hc0 Hi) as H.
      destruct (hdecode m' (c_dec c) (c_rx c) (c_got c)) as [[[d rest] got] v].
      cbn [app]. split; [tauto|]. apply Forall_app. split; [exact Hv|]. constructor; [tauto|constructor].
    + rewrite app_nil_r. pose proof (inv_exact m m' t0 _ c cap Hw Hc0 Hi) as H.
      destruct (hdecode_exact m' cap (c_dec c) (c_rx c) (c_got c)) as [[[d rest] got] v].
      cbn [app]. split; [tauto|]. apply Forall_app. split; [exact Hv|]. constructor; [tauto|constructor].
    + rewrite !app_nil_r. split; [|exact Hv]. exact Hi.
Qed.

(* ------------------------------------------------------------------ *)
(* Readable: op_ok says enough. *)
Lemma op_ok_readable limit l o : op_ok limit o -> readable limit l o.
Proof.
  destruct o as [f|n]; cbn [op_ok readable]; [|auto]. intros [Hi Hs] r Hr.
  inversion Hr as [i e El|i v fl e El|n v fl Hb|n v fl fo Hb Hf]; subst; cbn [sendable strings_within] in *; try tauto.
  destruct fo as [[i []]|]; cbn [strings_within]; tauto.
Qed.

(* In every reachable state the decoder is where the encoder was after some of its
   calls; and delivering and decoding everything catches up, if the calls still
   underway are ones the decoder, with its present limit, can read. *)
Theorem connection m m' t0 d0 evs : wf t0 -> dtable d0 = t0 -> Forall op_typed (sent evs) ->
  no_overflow (snd (run_ops m t0 [] (sent evs))) ->
  let '(c, vs) := conn_run m m' (conn_start t0 d0) evs in
  exists done todo,
    sent evs = done ++ todo /\
    c_got c = headers (abs t0) done /\
    wf (dtable (c_dec c)) /\ abs (dtable (c_dec c)) = table_after (abs t0) done /\
    wf (c_enc c) /\ abs (c_enc c) = table_after (abs t0) (sent evs) /\
    c_rx c ++ concat (c_wire c) = snd (fst (run_ops m (dtable (c_dec c)) [] todo)) /\
    Forall verdict_ok vs /\
    (Forall (op_ok (dlimit (c_dec c))) todo ->
     exists n, conn_run m m' c [EvDeliver (List.length (c_wire c)); EvDecode] =
       (mkConn (c_enc c) [] [] (set_table (c_dec c) (c_enc c)) (headers (abs t0) (sent evs)), [Ok n])).
Proof.
  intros Hw Hd Hty Hno. pose proof (conn_run_inv m m' t0 d0 evs Hw Hd (conj Hty Hno)) as H.
  pose proof (conj Hty Hno : clean m t0 (sent evs)) as Hc.
  destruct (conn_run m m' (conn_start t0 d0) evs) as [c vs]. destruct H as [Hi Hv].
  destruct (inv_wf m t0 _ c Hw Hc Hi) as (Wd & Brx & We).
  destruct Hi as (done & q & w & t1 & out1 & rs1 & t2 & rs2 & out3 & rs3 & E0 & E1 & E2 & E3 & E4 & E5 & E6).
  rewrite E0 in Hc.
  destruct (clean_app m t0 done (q ++ w) Hw Hc) as [C1 C2]. specialize (C2 _ _ _ E1).
  destruct (clean_run m t0 done Hw C1) as (t' & ? & R & W1 & _ & A1). rewrite E1 in R. injection R as <- _ _.
  destruct (clean_app m t1 q w W1 C2) as [C3 C4]. specialize (C4 _ _ _ E4).
  destruct (clean_run m t1 q W1 C3) as (t' & ? & R & W2 & _ & _). rewrite E4 in R. injection R as <- _ _.
  pose proof (blocks_concat m w t2 _ _ _ W2 (proj1 C4) E5) as Ew. rewrite <- E6 in Ew.
  pose proof (run_ops_app0 m q w t1 _ _ _ _ _ _ W2 (proj1 C4) E4 E5) as Rall.
  pose proof (run_ops_app0 m done (q ++ w) t0 _ _ _ _ _ _ W1 (proj1 C2) E1 Rall) as Rtot.
  exists done, (q ++ w). split; [exact E0|]. split; [exact E3|]. split; [exact Wd|]. split; [rewrite E2; exact A1|].
  split; [exact We|]. split.
  { destruct (clean_run m t0 (done ++ q ++ w) Hw Hc) as (t' & ? & R & _ & _ & A). rewrite Rtot in R.
    injection R as <- _ _. rewrite E0. exact A. }
  split; [rewrite E2, Rall; cbn [fst snd]; rewrite Ew; reflexivity|]. split; [exact Hv|].
  intros Hok. cbn [conn_run conn_step c_enc c_wire c_rx c_dec c_got].
  rewrite firstn_all, skipn_all, Ew.
  destruct (no_silent_desync m m' (q ++ w) (c_dec c) t1 (c_got c) W1 E2 (proj1 C2) (proj2 C2)) as (t' & out & R & _ & _ & Hdel).
  rewrite Rall in R. injection R as <- <- Ers.
  destruct Hdel as [(n & Hx)|(ops1 & o & ops2 & t3 & out4 & rs4 & rest & e & Eo & _ & _ & Hnr & _)].
  - rewrite Hx. exists n. fold (headers (abs t1) (q ++ w)).
    rewrite E3, E0, (headers_app (abs t0)), <- A1. reflexivity.
  - exfalso. apply Hnr, op_ok_readable. rewrite Eo in Hok. apply Forall_app in Hok as [_ Hok]. inversion Hok; subst. assumption.
Qed.

(* Why a decoder call fails. *)
Theorem connection_error m m' t0 d0 evs : wf t0 -> dtable d0 = t0 -> Forall op_typed (sent evs) ->
  no_overflow (snd (run_ops m t0 [] (sent evs))) ->
  let '(c, _) := conn_run m m' (conn_start t0 d0) evs in
  forall d1 rest got e,
  (hdecode m' (c_dec c) (c_rx c) (c_got c) = ((d1, rest, got), Err e) \/
   exists cap, hdecode_exact m' cap (c_dec c) (c_rx c) (c_got c) = ((d1, rest, got), Err e)) ->
  exists done o todo,
    sent evs = done ++ o :: todo /\ got = headers (abs t0) done /\
    abs (dtable d1) = table_after (abs t0) done /\
    ~ readable (dlimit (c_dec c)) (entries (table_after (abs t0) done)) o /\
    (e = DIntegerOverflow \/ e = DInvalidMaxDynamicSize /\ exists n, o = Resize n /\ dlimit (c_dec c) < n).
Proof.
  intros Hw Hd Hty Hno. pose proof (conn_run_inv m m' t0 d0 evs Hw Hd (conj Hty Hno)) as H.
  pose proof (conj Hty Hno : clean m t0 (sent evs)) as Hc.
  destruct (conn_run m m' (conn_start t0 d0) evs) as [c vs]. destruct H as [Hi _].
  destruct (inv_wf m t0 _ c Hw Hc Hi) as (Wd & Brx & _).
  assert (G : forall cap d1 rest got e, hdecode_exact m' cap (c_dec c) (c_rx c) (c_got c) = ((d1, rest, got), Err e) ->
    exists done o todo,
      sent evs = done ++ o :: todo /\ got = headers (abs t0) done /\
      abs (dtable d1) = table_after (abs t0) done /\
      ~ readable (dlimit (c_dec c)) (entries (table_after (abs t0) done)) o /\
      (e = DIntegerOverflow \/ e = DInvalidMaxDynamicSize /\ exists n, o = Resize n /\ dlimit (c_dec c) < n)).
  { intros cap d1 rest got e Hx.
    destruct Hi as (done & q & w & t1 & out1 & rs1 & t2 & rs2 & out3 & rs3 & E0 & E1 & E2 & E3 & E4 & _).
    rewrite E0 in *.
    destruct (clean_app m t0 done (q ++ w) Hw Hc) as [C1 C2]. specialize (C2 _ _ _ E1).
    destruct (clean_run m t0 done Hw C1) as (t' & ? & R & W1 & _ & A1). rewrite E1 in R. injection R as <- _ _.
    destruct (clean_app m t1 q w W1 C2) as [C3 C4].
    destruct (exact_reads m m' q cap (c_dec c) t1 (c_got c) W1 E2 (proj1 C3) (proj2 C3)) as (t' & out & R & _ & _ & Hr).
    rewrite E4 in R. injection R as <- <- _. rewrite Hx in Hr.
    destruct Hr as (q1 & q2 & t3 & o3 & rs4 & rest' & v & -> & Q1 & _ & Hx' & Hv).
    injection Hx' as -> -> -> <-.
    destruct Hv as [[(n & Hn) _]|(e' & o & q3 & Ee & -> & Hnr & He)]; [discriminate Hn|]. injection Ee as <-.
    destruct (clean_app m t1 q1 (o :: q3) W1 C3) as [C5 _].
    destruct (clean_run m t1 q1 W1 C5) as (t' & ? & R & W3 & _ & A3). rewrite Q1 in R. injection R as <- _ _.
    assert (At : abs t3 = table_after (abs t0) (done ++ q1)).
    { rewrite A3, A1. unfold table_after. rewrite meaning_app. destruct (meaning (abs t0) done) as [[x1 h1] r1]. cbn [fst snd].
      destruct (meaning x1 q1) as [[? ?] ?]. reflexivity. }
    exists (done ++ q1), o, (q3 ++ w). split; [rewrite <- !app_assoc; reflexivity|].
    split; [rewrite E3, headers_app, <- A1; reflexivity|]. split; [exact At|].
    split; [rewrite <- At; exact Hnr|exact He]. }
  intros d1 rest got e [Hx|(cap & Hx)]; [|exact (G _ _ _ _ _ Hx)].
  rewrite (decode_is_exact m' _ _ _ Wd Brx) in Hx. exact (G _ _ _ _ _ Hx).
Qed.

(* Limits always at least L, updates and strings within what decoders read: no call fails. *)
Definition limit_kept (L : N) (ev : event) : Prop := match ev with EvLimit n => L <= n | _ => True end.

Lemma hdecode_limit m d buf dst d1 rest dst1 o : wf (dtable d) -> bytes buf ->
  hdecode m d buf dst = ((d1, rest, dst1), o) -> dlimit d1 = dlimit d.
Proof.
  intros Hw Hb H. destruct (hdecode_total m d buf dst Hw Hb) as (? & ? & ? & ? & ? & _ & _ & _ & _ & _ & E).
  rewrite H in E. injection E as -> _ _ _. reflexivity.
Qed.
Lemma exact_limit m cap d buf dst d1 rest dst1 o : wf (dtable d) -> bytes buf ->
  hdecode_exact m cap d buf dst = ((d1, rest, dst1), o) -> dlimit d1 = dlimit d.
Proof.
  intros Hw Hb H. destruct (hdecode_exact_total m cap d buf dst Hw Hb) as (? & ? & ? & ? & ? & _ & _ & _ & _ & _ & _ & E).
  rewrite H in E. injection E as -> _ _ _. reflexivity.
Qed.

Lemma op_ok_mono L L' o : L <= L' -> op_ok L o -> op_ok L' o.
Proof. destruct o; cbn; intros H1 H2; [exact H2|lia]. Qed.

Theorem connection_smooth m m' t0 d0 L evs : wf t0 -> dtable d0 = t0 -> Forall op_typed (sent evs) ->
  no_overflow (snd (run_ops m t0 [] (sent evs))) ->
  L <= dlimit d0 -> Forall (limit_kept L) evs -> Forall (op_ok L) (sent evs) ->
  Forall (fun v => exists n, v = Ok n) (snd (conn_run m m' (conn_start t0 d0) evs)).
Proof.
  intros Hw Hd Hty Hno HL Hk Ho.
  enough (Forall (fun v => exists n, v = Ok n) (snd (conn_run m m' (conn_start t0 d0) evs)) /\
          L <= dlimit (c_dec (fst (conn_run m m' (conn_start t0 d0) evs)))) by tauto.
  induction evs as [|ev evs IH] using rev_ind; [split; [constructor|exact HL]|].
  rewrite sent_app in *. apply Forall_app in Hk as [Hk1 Hk2]. apply Forall_app in Ho as [Ho1 Ho2].
  destruct (clean_app m t0 (sent evs) (sent [ev]) Hw (conj Hty Hno)) as [[T1 T2] _].
  specialize (IH T1 T2 Hk1 Ho1).
  pose proof (conn_run_inv m m' t0 d0 evs Hw Hd (conj T1 T2)) as Hi.
  pose proof (connection_error m m' t0 d0 evs Hw Hd T1 T2) as He.
  rewrite conn_run_app. destruct (conn_run m m' (conn_start t0 d0) evs) as [c vs]. cbn [fst snd] in IH.
  destruct Hi as [Hi _]. destruct (inv_wf m t0 _ c Hw (conj T1 T2) Hi) as (Wd & Brx & _). destruct IH as [IH1 IH2].
  assert (Hne : forall d1 rest got e,
    (hdecode m' (c_dec c) (c_rx c) (c_got c) = ((d1, rest, got), Err e) \/
     exists cap, hdecode_exact m' cap (c_dec c) (c_rx c) (c_got c) = ((d1, rest, got), Err e)) -> False).
  { intros d1 rest got e Hx. destruct (He d1 rest got e Hx) as (done & o & todo & Es & _ & _ & Hnr & _).
    apply Hnr, op_ok_readable. rewrite Es in Ho1. apply Forall_app in Ho1 as [_ Ho1]. inversion Ho1; subst.
    eapply op_ok_mono; eassumption. }
  cbn [conn_run]. destruct ev as [o|k| |cap|n]; cbn [conn_step].
  - fold (op_step m (c_enc c) [] o). destruct (op_step m (c_enc c) [] o) as [[t bs] r]. cbn [fst snd c_dec]. rewrite !app_nil_r. auto.
  - cbn [fst snd c_dec]. rewrite !app_nil_r. auto.
  - pose proof (inv_decode m m' t0 _ c Hw (conj T1 T2) Hi) as Hv.
    destruct (hdecode m' (c_dec c) (c_rx c) (c_got c)) as [[[d rest] got] v] eqn:E. cbn [fst snd c_dec app].
    rewrite (hdecode_limit _ _ _ _ _ _ _ _ Wd Brx E). split; [|exact IH2]. apply Forall_app. split; [exact IH1|].
    constructor; [|constructor]. destruct Hv as [_ [Hn|[Hn|Hn]]]; [exact Hn| |]; subst v; exfalso; eapply Hne; left; exact E || reflexivity.
  - pose proof (inv_exact m m' t0 _ c cap Hw (conj T1 T2) Hi) as Hv.
    destruct (hdecode_exact m' cap (c_dec c) (c_rx c) (c_got c)) as [[[d rest] got] v] eqn:E. cbn [fst snd c_dec app].
    rewrite (exact_limit _ _ _ _ _ _ _ _ _ Wd Brx E). split; [|exact IH2]. apply Forall_app. split; [exact IH1|].
    constructor; [|constructor]. destruct Hv as [_ [Hn|[Hn|Hn]]]; [exact Hn| |]; subst v; exfalso; eapply Hne; right; exists cap; exact E.
  - cbn [fst snd c_dec]. rewrite !app_nil_r. split; [exact IH1|]. inversion Hk2; subst. assumption.
Qed.
