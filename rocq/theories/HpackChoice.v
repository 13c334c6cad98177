(* How headers are compressed cannot be seen in their names and values (C119). *)
From Verif Require Import Base HuffTables HuffModel HuffSpec Leb HpackStatic HpackModel
  HpackSpec HpackApi HpackTab HpackDec HpackEnc HpackDerived HpackMore HpackConn HpackTrust HpackConform.
Open Scope list_scope.
Open Scope N_scope.

(* ------------------------------------------------------------------ *)
(* Specification vocabulary. *)

(* The names and values the calls ask for, in order: as spelled out, or as found at the
   index in the encoder's table at the time of the call. *)
Fixpoint asked (m : mode) (t : table) (ops : list op) : list field_line :=
  match ops with
  | [] => []
  | Send f :: ops' =>
      match field_of (inner t) f with Some e => [e] | None => [] end ++ asked m (fst (fst (hencode m t f []))) ops'
  | Resize n :: ops' => asked m (fst (fst (encoder_update_max m t n []))) ops'
  end.
(* Calls that spell everything out. *)
Definition spelled (o : op) : Prop := match o with Send (Literal _ _ _) | Resize _ => True | _ => False end.
Definition text (o : op) : list field_line := match o with Send (Literal n v _) => [(n, v)] | _ => [] end.

(* ------------------------------------------------------------------ *)
Lemma step_table m t o limit : wf t -> limit < 2 ^ 32 -> op_ok limit o ->
  exists d', fst (fst (op_step m t [] o)) = conc d' /\ wf (conc d') /\ fst (fst (op_meaning (abs t) o)) = d'.
Proof.
  intros Hw Hl Ho. destruct (session_ok m limit [o] t [] Hw Hl ltac:(constructor; [exact Ho|constructor])) as (out & prs & d' & hs & E & Em & _ & Wp & _ & Hi).
  exists d'. rewrite run_ops_cons in E. rewrite meaning_cons in *.
  destruct (op_step m t [] o) as [[t1 dst1] r1]. destruct (op_meaning (abs t) o) as [[d1 h] r]. cbn [run_ops meaning fst snd] in *.
  pose proof (f_equal (fun z => fst (fst z)) E) as E1. cbn [fst] in E1. injection Em as -> _.
  split; [exact E1|]. split; [|reflexivity]. apply (interp_all_wf limit prs (abs t) d' hs); [unfold wfd; now rewrite conc_abs| |exact Hi].
  exact (wires_rfc_code prs Wp).
Qed.
Lemma asked_headers m limit ops : forall t, wf t -> limit < 2 ^ 32 -> Forall (op_ok limit) ops ->
  map fst (headers (abs t) ops) = asked m t ops.
Proof.
  induction ops as [|o ops IH]; intros t Hw Hl F; [reflexivity|]. inversion F as [|? ? F1 F2]; subst.
  destruct (step_table m t o limit Hw Hl F1) as (d1 & E1 & W1 & E2).
  assert (H : headers (abs t) (o :: ops) = snd (fst (op_meaning (abs t) o)) ++ headers d1 ops).
  { unfold headers. rewrite meaning_cons. destruct (op_meaning (abs t) o) as [[dd h] r]. cbn [fst] in E2. subst dd.
    destruct (meaning d1 ops) as [[? ?] ?]. reflexivity. }
  rewrite H, map_app. assert (A : map fst (headers d1 ops) = asked m (conc d1) ops) by (rewrite <- (IH (conc d1) W1 Hl F2); now rewrite abs_conc).
  rewrite A. destruct o as [f|n]; cbn [op_step op_meaning asked] in *; rewrite E1; [|reflexivity].
  change (entries (abs t)) with (inner t). destruct (field_of (inner t) f) as [[n v]|]; reflexivity.
Qed.
Lemma asked_text m ops : Forall spelled ops -> forall t, asked m t ops = concat (map text ops).
Proof.
  induction 1 as [|o ops H _ IH]; intros t; [reflexivity|]. cbn [map concat].
  destruct o as [[i|i v fl|n v fl]|n]; cbn [spelled] in H; try contradiction; cbn [asked text field_of app]; [now rewrite IH|apply IH].
Qed.

Theorem choice_received m m' ops d t dst : wf t -> dtable d = t -> dlimit d < 2 ^ 32 -> Forall (op_ok (dlimit d)) ops ->
  exists d' hs n, hdecode m' d (written m t ops) dst = ((d', [], dst ++ hs), Ok n) /\ map fst hs = asked m t ops.
Proof.
  intros Hw Ht Hl F. destruct (session_sync m m' ops d t dst Hw Ht Hl F) as (t' & out & n & E1 & _ & E2).
  exists (set_table d t'), (headers (abs t) ops), n. unfold written. rewrite E1. cbn [fst snd]. split; [exact E2|]. now apply (asked_headers m (dlimit d)).
Qed.
Theorem choice_invisible m1 m1' m2 m2' ops1 ops2 d1 t1 d2 t2 dst1 dst2 :
  wf t1 -> dtable d1 = t1 -> dlimit d1 < 2 ^ 32 -> Forall (op_ok (dlimit d1)) ops1 ->
  wf t2 -> dtable d2 = t2 -> dlimit d2 < 2 ^ 32 -> Forall (op_ok (dlimit d2)) ops2 ->
  asked m1 t1 ops1 = asked m2 t2 ops2 ->
  exists d1' hs1 n1 d2' hs2 n2, hdecode m1' d1 (written m1 t1 ops1) dst1 = ((d1', [], dst1 ++ hs1), Ok n1) /\
    hdecode m2' d2 (written m2 t2 ops2) dst2 = ((d2', [], dst2 ++ hs2), Ok n2) /\ map fst hs1 = map fst hs2.
Proof.
  intros W1 T1 L1 F1 W2 T2 L2 F2 E. destruct (choice_received m1 m1' ops1 d1 t1 dst1 W1 T1 L1 F1) as (d1' & hs1 & n1 & E1 & A1).
  destruct (choice_received m2 m2' ops2 d2 t2 dst2 W2 T2 L2 F2) as (d2' & hs2 & n2 & E2 & A2).
  exists d1', hs1, n1, d2', hs2, n2. split; [exact E1|]. split; [exact E2|]. congruence.
Qed.
