(* Proofs about ProtosIo.v. *)
From Verif Require Import Base Leb ProtosModel ProtosSpec ProtosApi ProtosNum ProtosEnc ProtosDec ProtosDerived ProtosMore ProtosIo.
Open Scope N_scope.

(* All the encoder does with its writer is to send a list of chunks. *)
Fixpoint send {D} (wa : D -> list N -> D * outcome penc_error unit) (cs : list (list N)) (s : D)
  (o : outcome penc_error N) : D * outcome penc_error N :=
  match cs with
  | [] => (s, o)
  | c :: cs' => binds (wa s c) (fun s _ => send wa cs' s o)
  end.

Definition sends (f : forall D : Type, (D -> list N -> D * outcome penc_error unit) -> D -> D * outcome penc_error N) : Prop :=
  exists cs o, forall D wa s, f D wa s = send wa cs s o.

Lemma send_app {D} (wa : D -> list N -> D * outcome penc_error unit) a b s o n :
  binds (send wa a s (Ok n)) (fun s _ => send wa b s o) = send wa (a ++ b) s o.
Proof.
  revert s. induction a as [|c a IH]; intros s; [reflexivity|]. cbn [send app].
  destruct (wa s c) as [s' [u|e| |]]; cbn [binds]; auto.
Qed.
Lemma send_bind {D} (wa : D -> list N -> D * outcome penc_error unit) a b s (o : outcome penc_error N)
  (k : D -> N -> D * outcome penc_error N) n : (forall s, k s n = send wa b s o) ->
  binds (send wa a s (Ok n)) k = send wa (a ++ b) s o.
Proof.
  intros Hk. revert s. induction a as [|c a IH]; intros s; [apply Hk|]. cbn [send app].
  destruct (wa s c) as [s' [u|e| |]]; cbn [binds]; auto.
Qed.
Lemma send_fail {D B} (wa : D -> list N -> D * outcome penc_error unit) a s o
  (k : D -> N -> D * outcome penc_error B) : (forall n, o <> Ok n) ->
  binds (send wa a s o) k =
  (fst (send wa a s o), match snd (send wa a s o) with Ok _ => OutOfFuel | Err e => Err e | Panic => Panic | OutOfFuel => OutOfFuel end).
Proof.
  intros Ho. revert s. induction a as [|c a IH]; intros s; cbn [send].
  - destruct o; cbn; try reflexivity. destruct (Ho a eq_refl).
  - destruct (wa s c) as [s' [u|e| |]]; cbn [binds]; auto.
Qed.

Lemma sends_bind f g : sends f -> (forall n, sends (fun D wa s => g D wa n s)) ->
  sends (fun D wa s => binds (f D wa s) (fun s n => g D wa n s)).
Proof.
  intros (cs & o & Hf) Hg. destruct o as [n|e| |].
  - destruct (Hg n) as (cs' & o' & Hg'). exists (cs ++ cs'), o'. intros D wa s. rewrite Hf.
    rewrite <- (send_app wa cs cs' s o' n). clear Hf.
    revert s. induction cs as [|c cs IH]; intros s; cbn [send].
    + cbn [binds]. apply Hg'.
    + destruct (wa s c) as [s' [u|e| |]]; cbn [binds]; auto.
  - exists cs, (Err e). intros D wa s. rewrite Hf. clear Hf. revert s. induction cs as [|c cs IH]; intros s; cbn [send binds]; auto.
    destruct (wa s c) as [s' [u|e'| |]]; cbn [binds]; auto.
  - exists cs, Panic. intros D wa s. rewrite Hf. clear Hf. revert s. induction cs as [|c cs IH]; intros s; cbn [send binds]; auto.
    destruct (wa s c) as [s' [u|e'| |]]; cbn [binds]; auto.
  - exists cs, OutOfFuel. intros D wa s. rewrite Hf. clear Hf. revert s. induction cs as [|c cs IH]; intros s; cbn [send binds]; auto.
    destruct (wa s c) as [s' [u|e'| |]]; cbn [binds]; auto.
Qed.
Lemma sends_const o : sends (fun D wa s => (s, o)).
Proof. exists [], o. reflexivity. Qed.
Lemma sends_write data o : sends (fun D wa s => binds (wa s data) (fun s _ => (s, o))).
Proof. exists [data], o. reflexivity. Qed.

Lemma sends_varint_loop fuel : forall v n, sends (fun D wa s => gencode_varint_loop wa fuel v n s).
Proof.
  induction fuel as [|fuel IH]; intros v n; cbn [gencode_varint_loop]; destruct (v <? 128).
  - apply sends_write. - apply sends_const. - apply sends_write.
  - destruct (IH (N.shiftr v 7) (n + 1)) as (cs & o & H).
    exists ([wrap 8 (N.lor (N.land v 127) 128)] :: cs), o. intros D wa s. cbn [send].
    destruct (wa s _) as [s' [u|e| |]]; cbn [binds]; auto.
Qed.
Lemma sends_varint v : sends (fun D wa s => gencode_varint wa v s).
Proof. apply sends_varint_loop. Qed.
Lemma gvarint_sink fuel : forall v n s, gencode_varint_loop write_all fuel v n s = pencode_varint_loop fuel v n s.
Proof.
  induction fuel as [|fuel IH]; intros v n s; cbn [gencode_varint_loop pencode_varint_loop]; destruct (v <? 128); reflexivity.
Qed.
Lemma varint_sink v s : gencode_varint write_all v s = pencode_varint v s.
Proof. apply gvarint_sink. Qed.
Lemma sends_key tag t : sends (fun D wa s => gencode_key wa tag t s).
Proof. unfold gencode_key. destruct (_ || _); [apply sends_const|apply sends_varint]. Qed.
Lemma sends_field tag t prim : sends prim ->
  sends (fun D wa s => gfield_with wa tag t (prim D wa) s).
Proof.
  intros Hp. unfold gfield_with. apply (sends_bind (fun D wa s => gencode_key wa tag t s)
    (fun D wa n s => binds (prim D wa s) (fun s k => (s, Ok (n + k))))); [apply sends_key|].
  intros n. apply (sends_bind prim (fun D wa k s => (s, Ok (n + k)))); [exact Hp|]. intros k. apply sends_const.
Qed.
(* The goals below are matched literally, so that a difference is found at once. *)
Ltac sends_prim :=
  unfold gprim_bool, gprim_int, gprim_uint, gprim_sint32, gprim_sint64, gwrite_fixed; cbv beta;
  lazymatch goal with
  | |- sends (fun D wa s => gencode_varint wa ?v s) => apply (sends_varint v)
  | |- sends (fun D wa s => binds (wa s ?d) (fun s1 _ => (s1, ?o))) => apply (sends_write d o)
  end.
Ltac sends_one :=
  lazymatch goal with
  | |- sends (fun D wa s => gfield_with wa ?tag ?t (@?prim D wa) s) => apply (sends_field tag t prim)
  end.
Lemma sends_bytes tag data : sends (fun D wa s => gencode_bytes wa tag data s).
Proof.
  unfold gencode_bytes. sends_one.
  unfold gprim_bytes. destruct (_ <? _); [apply sends_const|].
  apply (sends_bind (fun D wa s => gencode_varint wa (N.of_nat (length data)) s)
    (fun D wa n s => binds (wa s data) (fun s _ => (s, Ok (N.of_nat (length data) + n))))).
  - apply sends_varint. - intros n. apply sends_write.
Qed.
Lemma sends_vec {A} (prim : A -> sink -> penc) tag vals : sends (fun D wa s => gencode_vec wa prim tag vals s).
Proof.
  unfold gencode_vec. destruct (encode_each prim vals (vec_sink [])) as [d [u|e| |]];
    [apply sends_bytes|apply sends_const|apply sends_const|apply sends_const].
Qed.
Lemma sends_pencode tag l : sends (fun D wa s => gpencode wa tag l s).
Proof.
  destruct l as [v|v|v|v|v|v|v|v|v|v|v|v|v|v|v|v|v|v|v|v|v|v|v|v|v|v|v]; cbn [gpencode];
    lazymatch goal with
    | |- sends (fun D wa s => gencode_bytes wa ?tag ?d s) => apply (sends_bytes tag d)
    | |- sends (fun D wa s => gencode_vec wa ?prim ?tag ?d s) => apply (sends_vec prim tag d)
    | _ => sends_one; sends_prim
    end.
Qed.

(* On the writers of ProtosModel it is the encoder of ProtosModel. *)
Lemma gvec_sink {A} (prim : A -> sink -> penc) tag v s :
  (forall d, gencode_bytes write_all tag d s = pencode_bytes tag d s) ->
  gencode_vec write_all prim tag v s = pencode_vec prim tag v s.
Proof.
  intros B. unfold gencode_vec, pencode_vec. destruct (encode_each prim v (vec_sink [])) as [d [u|e| |]]; [apply B|reflexivity..].
Qed.
Lemma gpencode_sink tag l s : gpencode write_all tag l s = pencode tag l s.
Proof.
  pose proof varint_sink as V.
  assert (F : forall t p q, (forall s, p s = q s) -> gfield_with write_all tag t p s = field_with tag t q s).
  { intros t p q H. unfold gfield_with, field_with, gencode_key, pencode_key. rewrite V.
    destruct (_ || _); [reflexivity|]. destruct (pencode_varint _ s) as [s' [n|e| |]]; cbn [binds]; auto. rewrite H. reflexivity. }
  assert (B : forall d, gencode_bytes write_all tag d s = pencode_bytes tag d s).
  { intros d. unfold gencode_bytes, pencode_bytes.
    lazymatch goal with |- gfield_with write_all ?g ?t ?p ?s = field_with ?g ?t ?q ?s => apply (F t p q) end.
    intros s'. unfold gprim_bytes, prim_bytes. rewrite V. cbv zeta.
    destruct (_ <? _); [reflexivity|]. destruct (pencode_varint _ s') as [s1 [n|e| |]]; cbn [binds]; reflexivity. }
  destruct l as [v|v|v|v|v|v|v|v|v|v|v|v|v|v|v|v|v|v|v|v|v|v|v|v|v|v|v]; cbn [gpencode pencode];
    lazymatch goal with
    | |- gencode_bytes write_all ?g ?d ?s = pencode_bytes ?g ?d ?s => apply (B d)
    | |- gencode_vec write_all ?prim ?g ?d ?s = pencode_vec ?prim ?g ?d ?s => exact (gvec_sink prim g d s B)
    | |- gfield_with write_all ?g ?t ?p ?s = field_with ?g ?t ?q ?s => apply (F t p q); intros s';
        unfold gprim_bool, gprim_int, gprim_uint, gprim_sint32, gprim_sint64, gwrite_fixed,
          prim_bool, prim_int32, prim_int64, prim_uint32, prim_uint64, prim_sint32, prim_sint64,
          prim_fixed32, prim_fixed64, prim_sfixed32, prim_sfixed64, prim_float, prim_double, write_fixed;
        rewrite ?V; lazymatch goal with |- ?x = ?x => reflexivity end
    end.
Qed.

(* The chunks of a field are its octets. *)
Lemma send_vec cs : forall dst o, send write_all cs (vec_sink dst) o = (vec_sink (dst ++ concat cs), o).
Proof.
  induction cs as [|c cs IH]; intros dst o; cbn [send concat]; [rewrite app_nil_r; reflexivity|].
  cbn. change (mkSink (dst ++ c) None) with (vec_sink (dst ++ c)). rewrite IH, <- app_assoc. reflexivity.
Qed.
Lemma pencode_chunks tag l t p bs : 1 <= tag < 2 ^ 29 -> lit_ok l -> lit_wire l t p -> N.of_nat (length p) < 2 ^ 64 ->
  field_wire (tag, t, p) bs ->
  exists cs, concat cs = bs /\ forall D (wa : D -> list N -> D * outcome penc_error unit) s,
    gpencode wa tag l s = send wa cs s (Ok (N.of_nat (length bs))).
Proof.
  intros Ht Hl Hw Hp Hf. destruct (sends_pencode tag l) as (cs & o & H).
  pose proof (H sink write_all (vec_sink [])) as E. rewrite gpencode_sink, send_vec in E.
  rewrite (pencode_spec tag l t p bs (vec_sink []) Ht Hl Hw Hp Hf) in E. cbn in E.
  injection E as E1 E2. exists cs. split; [symmetry; exact E1|]. intros D wa s. rewrite H, E2. reflexivity.
Qed.

(* ------------------------------------------------------------------ *)
(* One write_all. *)
Lemma dialogue_app {W} (write : W -> list N -> W * io_answer) a tr b tr' c :
  dialogue write a tr b -> dialogue write b tr' c -> dialogue write a (tr ++ tr') c.
Proof. induction 1; intros H'; cbn [app]; [exact H'|]. econstructor; eauto. Qed.
Lemma taken_app a b : taken (a ++ b) = taken a ++ taken b.
Proof. unfold taken. now rewrite map_app, concat_app. Qed.
Lemma again_app a b : agains (a ++ b) = (agains a + agains b)%nat.
Proof. unfold agains. now rewrite filter_app, app_length. Qed.

Lemma write_all_any {W} (write : W -> list N -> W * io_answer) : honest write -> forall fuel data w log w' log' o,
  std_write_all write fuel (w, log) data = ((w', log'), o) ->
  exists tr got, log' = log ++ got /\
  sending write fuel data w tr w' got (match o with Ok _ => Ok (N.of_nat (length data)) | Err e => Err e | Panic => Panic | OutOfFuel => OutOfFuel end).
Proof.
  intros Hh. induction fuel as [|fuel IH]; intros data w log w' log' o E.
  - destruct data as [|b data]; cbn in E; injection E as <- <- <-; exists [], []; rewrite app_nil_r; (refine (conj eq_refl _)).
    + refine (conj (d_nil _ _) (conj eq_refl _)). refine (conj eq_refl (conj eq_refl _)). constructor.
    + refine (conj (d_nil _ _) (conj eq_refl _)). refine (conj _ (conj (Forall_nil _) _)); [|cbn; lia].
      exists (b :: data). refine (conj _ eq_refl). discriminate.
  - destruct data as [|b data].
    { cbn in E; injection E as <- <- <-; exists [], []; rewrite app_nil_r; (refine (conj eq_refl _)).
      refine (conj (d_nil _ _) (conj eq_refl _)). refine (conj eq_refl (conj eq_refl _)). constructor. }
    cbn [std_write_all] in E. set (all := b :: data) in *. assert (Hne : all <> []) by discriminate. clearbody all.
    destruct (write w all) as [w1 [n| |]] eqn:Ew.
    + pose proof (Hh w all w1 n Hne Ew) as Hn. destruct (n =? 0) eqn:E0.
      { apply N.eqb_eq in E0. subst n. injection E as <- <- <-. exists [(all, Accepted 0)], []. rewrite app_nil_r.
        refine (conj eq_refl _). refine (conj (d_cons _ _ _ _ _ _ _ Hne Ew (d_nil _ _)) (conj eq_refl _)).
        refine (conj eq_refl (conj _ _)); [exists all; split; [exact Hne|reflexivity]|].
        exists [], all, (Accepted 0). refine (conj eq_refl (conj _ (Forall_nil _))). now right. }
      apply N.eqb_neq in E0. replace (N.of_nat (length all) <? n) with false in E by (symmetry; apply N.ltb_ge; exact Hn).
      destruct (IH _ _ _ _ _ _ E) as (tr & got & Hl & Hd & Hg & Hc). clear IH E.
      exists ((all, Accepted n) :: tr), (firstn (N.to_nat n) all ++ got). rewrite app_assoc. refine (conj Hl _).
      assert (Hp : progress (all, Accepted n)) by (cbn; lia).
      assert (Hlen : length all = (length (firstn (N.to_nat n) all) + length (skipn (N.to_nat n) all))%nat)
        by (rewrite <- app_length, firstn_skipn; reflexivity).
      assert (Hlt : (1 <= length (firstn (N.to_nat n) all))%nat) by (rewrite firstn_length; lia).
      refine (conj (d_cons _ _ _ _ _ _ _ Hne Ew Hd) (conj _ _)); [unfold taken; cbn; f_equal; exact Hg|].
      destruct o as [u|e| |].
      * destruct Hc as (Hg' & _ & Hf). refine (conj _ (conj eq_refl _)); [rewrite Hg'; apply firstn_skipn|now constructor].
      * destruct Hc as (-> & (x & Hx & Hg') & tr0 & d & a & -> & Ha & Hf).
        refine (conj eq_refl (conj _ _)); [exists x; refine (conj Hx _); rewrite <- app_assoc, <- Hg'; symmetry; apply firstn_skipn|].
        exists ((all, Accepted n) :: tr0), d, a. refine (conj eq_refl (conj Ha _)). now constructor.
      * exact Hc.
      * destruct Hc as ((x & Hx & Hg') & Hf & Hu). refine (conj _ (conj _ _)).
        -- exists x; refine (conj Hx _); rewrite <- app_assoc, <- Hg'; symmetry; apply firstn_skipn.
        -- now constructor.
        -- unfold agains in *. cbn [filter snd]. lia.
    + destruct (IH _ _ _ _ _ _ E) as (tr & got & Hl & Hd & Hg & Hc). clear IH E.
      exists ((all, Again) :: tr), got. refine (conj Hl _).
      refine (conj (d_cons _ _ _ _ _ _ _ Hne Ew Hd) (conj Hg _)).
      destruct o as [u|e| |].
      * destruct Hc as (Hg' & _ & Hf). refine (conj Hg' (conj eq_refl _)). now constructor.
      * destruct Hc as (-> & Hs & tr0 & d & a & -> & Ha & Hf). refine (conj eq_refl (conj Hs _)).
        exists ((all, Again) :: tr0), d, a. refine (conj eq_refl (conj Ha _)). now constructor.
      * exact Hc.
      * destruct Hc as (Hs & Hf & Hu). refine (conj Hs (conj _ _)); [now constructor|].
        unfold agains in *. cbn [filter snd length]. lia.
    + injection E as <- <- <-. exists [(all, Refused)], []. rewrite app_nil_r. refine (conj eq_refl _).
      refine (conj (d_cons _ _ _ _ _ _ _ Hne Ew (d_nil _ _)) (conj eq_refl _)).
      refine (conj eq_refl (conj _ _)); [exists all; split; [exact Hne|reflexivity]|].
      exists [], all, Refused. refine (conj eq_refl (conj _ (Forall_nil _))). now left.
Qed.

Lemma send_any {W} (write : W -> list N -> W * io_answer) : honest write -> forall fuel cs k w log w' log' o,
  N.of_nat (length (concat cs)) = k ->
  send (std_write_all write fuel) cs (w, log) (Ok k) = ((w', log'), o) ->
  exists tr got, log' = log ++ got /\ sending write fuel (concat cs) w tr w' got o.
Proof.
  intros Hh fuel. intros cs k w log w' log' o Hk E. revert Hk.
  assert (G : exists tr got, log' = log ++ got /\ sending write fuel (concat cs) w tr w' got
     (match o with Ok n => Ok (N.of_nat (length (concat cs))) | _ => o end) /\ (forall n, o = Ok n -> n = k)).
  { revert w log E. induction cs as [|c cs IH]; intros w log E.
    - cbn in E. injection E as <- <- <-. exists [], []. rewrite app_nil_r. refine (conj eq_refl (conj _ _)); [|intros n [= ->]; reflexivity].
      refine (conj (d_nil _ _) (conj eq_refl _)). refine (conj eq_refl (conj eq_refl _)). constructor.
    - cbn [send concat] in *. destruct (std_write_all write fuel (w, log) c) as [[w1 log1] o1] eqn:E1.
      destruct (write_all_any write Hh fuel c w log w1 log1 o1 E1) as (tr & got & Hl & Hd & Hg & Hc).
      destruct o1 as [u|e| |]; cbn [binds] in E.
      + destruct Hc as (-> & _ & Hf). destruct (IH _ _ E) as (tr2 & got2 & Hl2 & (Hd2 & Hg2 & Hc2) & Ho).
        exists (tr ++ tr2), (c ++ got2). rewrite app_assoc, <- Hl. refine (conj Hl2 (conj _ Ho)).
        refine (conj (dialogue_app _ _ _ _ _ _ Hd Hd2) (conj _ _)); [rewrite taken_app; congruence|].
        destruct o as [n|e| |].
        * destruct Hc2 as (-> & _ & Hf2). refine (conj eq_refl (conj eq_refl _)). apply Forall_app. split; assumption.
        * destruct Hc2 as (-> & (x & Hx & Hg') & tr0 & d & a & -> & Ha & Hf2). refine (conj eq_refl (conj _ _)).
          -- exists x. refine (conj Hx _). rewrite <- app_assoc. congruence.
          -- exists (tr ++ tr0), d, a. rewrite app_assoc. refine (conj eq_refl (conj Ha _)). apply Forall_app. split; assumption.
        * exact Hc2.
        * destruct Hc2 as ((x & Hx & Hg') & Hf2 & Hu). refine (conj _ (conj _ _)).
          -- exists x. refine (conj Hx _). rewrite <- app_assoc. congruence.
          -- apply Forall_app. split; assumption.
          -- rewrite app_length, again_app. lia.
      + injection E as <- <- <-. exists tr, got. refine (conj Hl (conj _ _)); [|discriminate].
        refine (conj Hd (conj Hg _)). destruct Hc as (-> & (x & Hx & Hg') & Hr). refine (conj eq_refl (conj _ Hr)).
        exists (x ++ concat cs). refine (conj _ _); [destruct x; [contradiction|discriminate]|]. rewrite app_assoc. congruence.
      + contradiction.
      + injection E as <- <- <-. exists tr, got. refine (conj Hl (conj _ _)); [|discriminate].
        refine (conj Hd (conj Hg _)). destruct Hc as ((x & Hx & Hg') & Hf & Hu). refine (conj _ (conj Hf _)).
        * exists (x ++ concat cs). refine (conj _ _); [destruct x; [contradiction|discriminate]|]. rewrite app_assoc. congruence.
        * rewrite app_length. lia. }
  intros Hk. destruct G as (tr & got & Hl & Hs & Ho). exists tr, got. refine (conj Hl _).
  destruct o as [n|e| |]; auto. rewrite (Ho n eq_refl), <- Hk. exact Hs.
Qed.

(* Messages. *)
Lemma gmessage_chunks fs ws parts : Forall good_field fs -> Forall2 carries fs ws -> Forall2 field_wire ws parts ->
  exists cs, concat cs = concat parts /\ forall D (wa : D -> list N -> D * outcome penc_error unit) s,
    gencode_message wa fs s = send wa cs s (Ok (N.of_nat (length (concat parts)))).
Proof.
  intros Hg Hc. revert parts. induction Hc as [|[tag l] [[tag' t] p] fs ws (Et & Hw) Hc IH]; intros parts Hf.
  - inversion Hf; subst. exists []. refine (conj eq_refl _). reflexivity.
  - inversion Hf as [|x bs y parts' Hx Hf']; subst. inversion Hg as [|x y (Ht & Hl & Hs) Hg']; subst.
    cbn [fst snd] in *. subst tag'.
    destruct (pencode_chunks tag l t p bs Ht Hl Hw (Hs t p Hw) Hx) as (c1 & E1 & H1).
    destruct (IH Hg' parts' Hf') as (c2 & E2 & H2).
    exists (c1 ++ c2). cbn [concat]. rewrite concat_app, E1, E2. refine (conj eq_refl _). intros D wa s.
    cbn [gencode_message fst snd]. rewrite H1.
    apply send_bind. intros s'. rewrite H2, app_length, Nat2N.inj_add.
    rewrite <- (app_nil_r c2) at 2. apply send_bind. reflexivity.
Qed.

Theorem encode_message_any {W} (write : W -> list N -> W * io_answer) fuel fs ws parts w w' got o : honest write ->
  Forall good_field fs -> Forall2 carries fs ws -> Forall2 field_wire ws parts ->
  encode_message_to write fuel fs w = ((w', got), o) ->
  exists tr, sending write fuel (concat parts) w tr w' got o.
Proof.
  intros Hh Hg Hc Hf E. destruct (gmessage_chunks fs ws parts Hg Hc Hf) as (cs & Ecs & H).
  unfold encode_message_to in E. rewrite H in E.
  destruct (send_any write Hh fuel cs _ w [] w' got o (f_equal (fun x => N.of_nat (length x)) Ecs) E) as (tr & g & -> & Hs).
  exists tr. rewrite <- Ecs. exact Hs.
Qed.
Theorem encode_any {W} (write : W -> list N -> W * io_answer) fuel tag l t p bs w w' got o : honest write ->
  1 <= tag < 2 ^ 29 -> lit_ok l -> lit_wire l t p -> N.of_nat (length p) < 2 ^ 64 -> field_wire (tag, t, p) bs ->
  encode_to write fuel tag l w = ((w', got), o) ->
  exists tr, sending write fuel bs w tr w' got o.
Proof.
  intros Hh Ht Hl Hw Hp Hf E. destruct (pencode_chunks tag l t p bs Ht Hl Hw Hp Hf) as (cs & Ecs & H).
  unfold encode_to in E. rewrite H in E.
  destruct (send_any write Hh fuel cs _ w [] w' got o (f_equal (fun x => N.of_nat (length x)) Ecs) E) as (tr & g & -> & Hs).
  exists tr. rewrite <- Ecs. exact Hs.
Qed.

(* Invalid tags: no call at all. *)
Theorem encode_any_bad_tag {W} (write : W -> list N -> W * io_answer) fuel tag l w : lit_ok l -> tag = 0 \/ 2 ^ 29 <= tag ->
  encode_to write fuel tag l w = ((w, []), Err PInvalidTag).
Proof.
  intros Hl Ht. destruct (sends_pencode tag l) as (cs & o & H).
  pose proof (H sink write_all (vec_sink [])) as E. rewrite gpencode_sink, send_vec in E.
  rewrite (pencode_bad_tag tag l (vec_sink []) Hl Ht) in E. injection E as E1 E2.
  unfold encode_to. rewrite H, <- E2. clear H E2. cbn [app] in E1.
  induction cs as [|c cs IH]; [reflexivity|]. cbn [concat] in E1. symmetry in E1. apply app_eq_nil in E1 as [-> E1].
  cbn [send]. destruct fuel; cbn [std_write_all binds]; apply IH; symmetry; exact E1.
Qed.

(* The writers of ProtosModel are instances: a slice is a writer that takes what fits. *)
Theorem encode_slice tag l s : gpencode write_all tag l s = pencode tag l s.
Proof. apply gpencode_sink. Qed.

(* ------------------------------------------------------------------ *)
(* Messages cut off anywhere. *)
Lemma app_cut {A} (x y a b : list A) : x ++ y = a ++ b -> (exists z, z <> [] /\ x ++ z = a) \/ (exists z, x = a ++ z /\ z ++ y = b).
Proof.
  revert a. induction x as [|c x IH]; intros [|d a] E; cbn in *.
  - right. exists []. auto.
  - left. exists (d :: a). split; [discriminate|reflexivity].
  - right. exists (c :: x). auto.
  - injection E as <- E. destruct (IH a E) as [(z & Hz & <-)|(z & -> & <-)]; [left|right]; exists z; auto.
Qed.
Lemma shape_cut x z : z <> [] -> varint_shape (x ++ z) -> continued x.
Proof.
  intros Hz (v & Hv). destruct (leb_init _ _ Hv) as (c & b & E & Hc).
  destruct (app_cut x z c [b] E) as [(y & _ & <-)|(y & -> & Hy)]; [now apply continued_app in Hc|].
  destruct y as [|d y]; [now rewrite app_nil_r|]. cbn in Hy. injection Hy as -> Hy. apply app_eq_nil in Hy as [_ Hy]. contradiction.
Qed.
Lemma reads_cut m x z v : z <> [] -> reads m (x ++ z) v -> continued x /\ (m = Debug -> (length x <= 10)%nat).
Proof.
  intros Hz (Hs & _ & Hd). split; [exact (shape_cut x z Hz Hs)|]. intros Hm. specialize (Hd Hm). rewrite app_length in Hd. lia.
Qed.
Lemma cut_app {A} (x y a b : list A) : x ++ y = a ++ b -> y <> [] ->
  (exists z, z <> [] /\ x ++ z = a) \/ (exists z, x = a ++ z /\ z ++ y = b).
Proof. intros E _. exact (app_cut x y a b E). Qed.

Lemma field_cut m tag t p bs a b : 1 <= tag < 2 ^ 29 -> payload_ok t p -> field_wire (tag, t, p) bs -> a ++ b = bs -> b <> [] ->
  exists a1 rest p1, a = a1 ++ rest /\ items m false Start a1 p1 [] /\ waiting m p1 rest.
Proof.
  intros Ht Hp (n & key & Hn & Hk & Hm) Eb Hb.
  assert (Hr : reads m key (8 * tag + n)).
  { apply reads_shortest; [exact Hk|]. apply wire_number_num in Hn as [_ Hn].
    change (2 ^ 29) with 536870912 in *. change (2 ^ 64) with 18446744073709551616. lia. }
  assert (Hkey : items m false Start key (GotKey tag t) []) by (apply items_one; [econstructor; eauto|discriminate]).
  assert (Hcut : exists body, bs = key ++ body) by (destruct t; [eauto..| |eauto|eauto]; destruct Hm as (len & _ & ->); eauto).
  destruct Hcut as (body & ->).
  destruct (app_cut a b key body Eb) as [(z & Hz & <-)|(z & -> & Hz)].
  { exists [], a, Start. refine (conj eq_refl (conj (items_nil _ _ _) _)). exact (reads_cut m a z _ Hz Hr). }
  destruct t; cbn [payload_ok] in Hp; try contradiction.
  - apply app_inv_head in Hm. subst body p. exists key, z, (GotKey tag Varint). refine (conj eq_refl (conj Hkey _)).
    exact (shape_cut z b Hb Hp).
  - apply app_inv_head in Hm. subst body p. exists key, z, (GotKey tag Bit64). refine (conj eq_refl (conj Hkey _)).
    cbn [waiting]. rewrite app_length in Hp. destruct b; [contradiction|]. cbn [length] in Hp. lia.
  - destruct Hm as (len & Hl & Hm). apply app_inv_head in Hm. rewrite Hm in Hz. clear Hm body Eb.
    assert (Hrl : reads m len (N.of_nat (length p))) by (apply reads_shortest; auto).
    destruct (app_cut z b len p Hz) as [(y & Hy & <-)|(y & -> & Hy)].
    + exists key, z, (GotKey tag LengthDelimited). refine (conj eq_refl (conj Hkey _)). exact (reads_cut m z y _ Hy Hrl).
    + exists (key ++ len), y, (GotLen tag (N.of_nat (length p))). rewrite <- app_assoc. refine (conj eq_refl (conj _ _)).
      * change (@nil pfield) with (@nil pfield ++ []). eapply items_app; [exact Hkey|].
        apply items_one; [constructor; exact Hrl|discriminate].
      * cbn [waiting]. subst p. rewrite app_length. destruct b; [contradiction|]. cbn [length]. lia.
  - apply app_inv_head in Hm. subst body p. exists key, z, (GotKey tag Bit32). refine (conj eq_refl (conj Hkey _)).
    cbn [waiting]. rewrite app_length in Hp. destruct b; [contradiction|]. cbn [length] in Hp. lia.
Qed.

Lemma message_cut m ws parts : Forall2 field_wire ws parts ->
  Forall (fun f => 1 <= fst (fst f) < 2 ^ 29 /\ payload_ok (snd (fst f)) (snd f)) ws ->
  forall a b, a ++ b = concat parts ->
  exists k a' a1 rest p1, complete parts a k a' /\ a = a1 ++ rest /\ items m false Start a1 p1 (firstn k ws) /\ waiting m p1 rest.
Proof.
  induction 1 as [|[[tag t] p] bs ws parts Hx Hf IH]; intros HF a b E.
  - cbn in E. apply app_eq_nil in E as [-> ->]. exists O, [], [], [], Start. refine (conj _ (conj eq_refl (conj _ _))).
    + refine (conj eq_refl (conj (Nat.le_refl _) _)). intros part H. discriminate.
    + constructor.
    + split; [constructor|cbn; lia].
  - inversion HF as [|x l (Ht & Hp) HF']; subst. cbn [fst snd concat] in *.
    destruct (app_cut a b bs (concat parts) E) as [(z & Hz & Ez)|(z & -> & Ez)].
    + destruct (field_cut m tag t p bs a z Ht Hp Hx Ez Hz) as (a1 & rest & p1 & Ea & Hi & Hw).
      exists O, a, a1, rest, p1. cbn [firstn]. refine (conj _ (conj Ea (conj Hi Hw))).
      refine (conj eq_refl (conj (Nat.le_0_l _) _)). cbn. intros part [= <-]. subst bs. rewrite app_length. destruct z; [contradiction|]. cbn. lia.
    + destruct (IH HF' z b Ez) as (k & a' & a1 & rest & p1 & (Hc & Hk & Hn) & Ea & Hi & Hw).
      exists (S k), a', (bs ++ a1), rest, p1. cbn [firstn]. refine (conj _ (conj _ (conj _ Hw))).
      * refine (conj _ (conj _ _)); [cbn [firstn concat]; rewrite <- app_assoc; congruence|cbn; lia|exact Hn].
      * rewrite <- app_assoc. congruence.
      * change ((tag, t, p) :: firstn k ws) with ([(tag, t, p)] ++ firstn k ws). eapply items_app; [|exact Hi].
        apply field_items; auto. discriminate.
Qed.

Theorem truncated_message m fs ws parts a b dst : Forall good_field fs -> Forall2 carries fs ws -> Forall2 field_wire ws parts ->
  a ++ b = concat parts ->
  exists k a' p1 rest, complete parts a k a' /\ idle p1 /\
    decode_fully m pdecoder_default a dst = ((decoder_of p1, rest, dst ++ firstn k ws), Ok tt) /\
    decode_fully m (decoder_of p1) (rest ++ b) (dst ++ firstn k ws) = ((pdecoder_default, [], dst ++ ws), Ok tt).
Proof.
  intros Hg Hc Hf E.
  assert (HF : Forall (fun f => 1 <= fst (fst f) < 2 ^ 29 /\ payload_ok (snd (fst f)) (snd f)) ws).
  { pose proof (carried_ok false fs ws Hg ltac:(discriminate) Hc) as H. eapply Forall_impl; [|exact H]. cbn. tauto. }
  assert (Hb : bytes (concat parts)) by (eapply parts_bytes; eauto).
  destruct (message_cut m ws parts Hf HF a b E) as (k & a' & a1 & rest & p1 & Hk & Ea & Hi & Hw).
  assert (D : decode_fully m pdecoder_default a dst = ((decoder_of p1, rest, dst ++ firstn k ws), Ok tt)).
  { rewrite Ea. apply (decode_fully_run m Start a1 p1 (firstn k ws) rest (Ok tt) dst I Hi). now constructor. }
  exists k, a', p1, rest. refine (conj Hk (conj _ (conj D _))).
  - rewrite <- E in Hb. destruct (decode_fully_total m Start a dst) as (x & q & hs & r & o & Ex & _ & _ & Hq & Eq); [now apply bytes_app in Hb|exact I|].
    change (decoder_of Start) with pdecoder_default in Eq. rewrite D in Eq. injection Eq as E1 _ _ _.
    destruct p1 as [|tag1 t1|tag1 len1]; [exact I| |].
    + destruct q as [|tag2 t2|tag2 len2]; cbn in E1; [|injection E1 as <- <-; exact Hq|discriminate].
      injection E1 as -> ->. cbn in Hw. contradiction.
    + destruct q as [|tag2 t2|tag2 len2]; cbn in E1; [discriminate..|]. injection E1 as <- <-. exact Hq.
  - rewrite <- (decode_split m Start a b dst _ _ _ ltac:(rewrite E; exact Hb) I D). rewrite E.
    exact (decode_message_fully m ws parts dst Hf HF).
Qed.

(* What reached any writer, decoded. *)
Theorem crash_message m {W} (write : W -> list N -> W * io_answer) fuel fs ws parts w w' got o dst : honest write ->
  Forall good_field fs -> Forall2 carries fs ws -> Forall2 field_wire ws parts ->
  encode_message_to write fuel fs w = ((w', got), o) ->
  exists k a' p1 rest, complete parts got k a' /\
    decode_fully m pdecoder_default got dst = ((decoder_of p1, rest, dst ++ firstn k ws), Ok tt) /\
    (forall n, o = Ok n -> firstn k ws = ws /\ p1 = Start /\ rest = []).
Proof.
  intros Hh Hg Hc Hf E. destruct (encode_message_any write fuel fs ws parts w w' got o Hh Hg Hc Hf E) as (tr & _ & _ & Ho).
  assert (P : exists b, got ++ b = concat parts).
  { destruct o as [n|e| |].
    - destruct Ho as (-> & _). exists []. apply app_nil_r.
    - destruct Ho as (_ & (x & _ & Hx) & _). exists x. auto.
    - contradiction.
    - destruct Ho as ((x & _ & Hx) & _). exists x. auto. }
  destruct P as (b & Hb). destruct (truncated_message m fs ws parts got b dst Hg Hc Hf Hb) as (k & a' & p1 & rest & Hk & Hi & D & R).
  exists k, a', p1, rest. refine (conj Hk (conj D _)). intros n ->. destruct Ho as (-> & _).
  assert (b = []) as -> by (apply (app_inv_head (concat parts)); rewrite app_nil_r; exact Hb).
  assert (HF : Forall (fun f => 1 <= fst (fst f) < 2 ^ 29 /\ payload_ok (snd (fst f)) (snd f)) ws).
  { pose proof (carried_ok false fs ws Hg ltac:(discriminate) Hc) as H. eapply Forall_impl; [|exact H]. cbn. tauto. }
  rewrite (decode_message_fully m ws parts dst Hf HF) in D. injection D as E1 E2 E3.
  apply app_inv_head in E3. refine (conj (eq_sym E3) (conj _ (eq_sym E2))).
  symmetry. apply decoder_of_inj; [exact E1|exact I|exact Hi].
Qed.
