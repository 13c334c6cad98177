(* Runs of table size updates (C113). *)
From Verif Require Import Base HuffTables HuffModel HuffSpec Leb HpackStatic HpackModel
  HpackSpec HpackApi HpackInt HpackStr HpackTab HpackDec HpackEnc HpackDerived HpackMore HpackRetain.
Open Scope list_scope.
Open Scope N_scope.

(* The smallest and the last of n :: ns. *)
Definition smallest (n : N) (ns : list N) : N := fold_left N.min ns n.
Definition final (n : N) (ns : list N) : N := last ns n.

Lemma smallest_le ns : forall n, smallest n ns <= n.
Proof. unfold smallest. induction ns as [|x ns IH]; intros n; cbn [fold_left]; [lia|]. specialize (IH (N.min n x)). lia. Qed.
Lemma smallest_in ns : forall n, In (smallest n ns) (n :: ns).
Proof.
  unfold smallest. induction ns as [|x ns IH]; intros n; cbn [fold_left]; [now left|].
  destruct (IH (N.min n x)) as [E|H]; [|right; now right]. destruct (N.min_spec n x) as [[_ F]|[_ F]]; rewrite F in E at 1; rewrite <- E;
    [left|right; left]; congruence.
Qed.
Lemma smallest_min ns : forall n x, In x (n :: ns) -> smallest n ns <= x.
Proof.
  unfold smallest. induction ns as [|y ns IH]; intros n x H; cbn [fold_left].
  - destruct H as [->|[]]. lia.
  - destruct H as [->|[->|H]].
    + pose proof (IH (N.min x y) (N.min x y) (or_introl eq_refl)). lia.
    + pose proof (IH (N.min n x) (N.min n x) (or_introl eq_refl)). lia.
    + apply IH. now right.
Qed.
Lemma final_cons x ns n : final n (x :: ns) = final x ns.
Proof. unfold final. revert x n. induction ns as [|y ns IH]; intros x n; [reflexivity|]. change (last (y :: ns) n = last (y :: ns) x). now rewrite (IH y n), (IH y x). Qed.
Lemma final_in ns : forall n, In (final n ns) (n :: ns).
Proof. induction ns as [|x ns IH]; intros n; [now left|]. rewrite final_cons. right. apply IH. Qed.

Lemma fit_min a b l : fit a (fit b l) = fit (N.min a b) l.
Proof.
  destruct (N.le_ge_cases a b) as [H|H].
  - rewrite N.min_l by exact H. now apply fit_fit.
  - rewrite N.min_r by exact H. apply fit_all. pose proof (fit_size b l). lia.
Qed.
Definition resized (d : dyn) (ns : list N) : dyn := fold_left resize ns d.
Lemma resized_eq ns : forall n d, resized d (n :: ns) = mkdyn (fit (smallest n ns) (entries d)) (final n ns).
Proof.
  unfold resized, smallest. induction ns as [|x ns IH]; intros n d; [reflexivity|]. cbn [fold_left] in *. rewrite final_cons.
  specialize (IH x (resize d n)). cbn [fold_left] in IH. rewrite IH. cbn [resize entries]. rewrite fit_min. f_equal. f_equal.
  assert (G : forall ns a b, N.min (fold_left N.min ns a) b = fold_left N.min ns (N.min a b)).
  { clear. induction ns as [|y ns IH]; intros a b; cbn [fold_left]; [reflexivity|]. rewrite IH. f_equal. lia. }
  rewrite G. f_equal. lia.
Qed.
(* A run of updates is two updates: the smallest, then the last. *)
Theorem resized_coalesce d n ns : resized d (n :: ns) = resized d [smallest n ns; final n ns].
Proof.
  rewrite !resized_eq. change (final (smallest n ns) [final n ns]) with (final n ns).
  change (smallest (smallest n ns) [final n ns]) with (N.min (smallest n ns) (final n ns)).
  rewrite N.min_l; [reflexivity|]. apply smallest_min, final_in.
Qed.
(* The last alone does when the smallest evicts no more. *)
Theorem resized_last d n ns : resized d (n :: ns) = resized d [final n ns] <-> fit (smallest n ns) (entries d) = fit (final n ns) (entries d).
Proof.
  rewrite !resized_eq. split; [intros H; now injection H|]. intros H. rewrite H. reflexivity.
Qed.

(* On the encoder. *)
Lemma run_updates m : forall ns t dst, wf t -> Forall (fun n => n < 2 ^ 32) ns ->
  exists out, run_ops m t dst (map Resize ns) = (conc (resized (abs t) ns), dst ++ out, map (fun _ => Ok tt) ns).
Proof.
  induction ns as [|n ns IH]; intros t dst W H.
  - exists []. cbn. now rewrite conc_abs, app_nil_r by exact W.
  - inversion H as [|? ? H1 H2]; subst. cbn [map]. rewrite run_ops_cons. cbn [op_step].
    destruct (encoder_update_ok m t n dst W H1) as (bs & E & _ & _ & _ & W'). rewrite E.
    destruct (IH _ (dst ++ bs) W' H2) as (out & Eo). rewrite Eo. rewrite abs_conc. exists (bs ++ out). now rewrite app_assoc.
Qed.

(* On the decoder. *)
Definition updates (prs : list (list N * repr)) (ns : list N) : Prop := wires 5 code_padding prs /\ reprs prs = map RSize ns.
Lemma interp_updates limit : forall ns d, Forall (fun n => n <= limit) ns -> interp_all limit d (map RSize ns) = Some (resized d ns, []).
Proof.
  induction ns as [|n ns IH]; intros d H; [reflexivity|]. inversion H as [|? ? H1 H2]; subst. cbn [map interp_all interp].
  rewrite (proj2 (N.leb_le _ _) H1). rewrite (IH (resize d n) H2). reflexivity.
Qed.
Lemma counted_updates prs ns : reprs prs = map RSize ns -> counted prs = 0.
Proof.
  revert ns. induction prs as [|[b r] prs IH]; intros ns E; [reflexivity|]. destruct ns as [|n ns]; [discriminate E|].
  unfold reprs in E. cbn [map snd] in E. injection E as -> E. unfold counted. cbn [fold_right snd is_size]. fold (counted prs).
  rewrite (IH ns E). reflexivity.
Qed.
Lemma decode_updates m d prs ns rest dst : wf (dtable d) -> bytes (wire_octets prs ++ rest) -> updates prs ns -> Forall (fun n => n <= dlimit d) ns ->
  hdecode m d (wire_octets prs ++ rest) dst = hdecode m (set_table d (conc (resized (abs (dtable d)) ns))) rest dst.
Proof.
  intros W Hb [Hp Er] Hl. pose proof (proj1 (Forall_app _ _ _) Hb) as [Hb1 _].
  assert (E : hdecode m d (wire_octets prs) dst = ((set_table d (conc (resized (abs (dtable d)) ns)), [], dst), Ok 0)).
  { pose proof (hdecode_ok m d prs [] (resized (abs (dtable d)) ns) [] Done dst W) as H. rewrite app_nil_r in H.
    rewrite H; [|exact Hb1|exact Hp|rewrite Er; now apply interp_updates|constructor].
    rewrite app_nil_r. cbn [stop_outcome]. now rewrite (counted_updates prs ns Er). }
  destruct (hdecode_concat m m m d (wire_octets prs) rest dst _ _ _ _ W Hb E) as [_ ->].
  destruct (hdecode m _ rest dst) as [x o]. cbn [fst snd]. destruct o as [k|e| |]; cbn [add_count]; [now rewrite N.add_0_l| | |]; reflexivity.
Qed.
