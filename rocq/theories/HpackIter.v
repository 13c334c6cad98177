(* TableIter, call by call. *)
From Verif Require Import Base HpackStatic HpackModel HpackSpec HpackApi HpackTab.
Open Scope list_scope.
Open Scope N_scope.

(* ------------------------------------------------------------------ *)
(* Model. *)

(* hpack/src/table/iter.rs:16-20, TableIter::next on the table t and the index i:
   get, then `self.index += 1` (u32).  Returns the item and the new index. *)
Definition iter_next {E} (m : mode) (t : table) (i : N) : outcome E (option entry * N) :=
  let res := table_get t i in
  i' <- u_add m 32 i 1 ;;
  Ok (res, i').

(* hpack/src/table/mod.rs:132-134: the index iter() starts with *)
Definition iter_start : N := 1.

(* n calls of next (hpack/src/table/iter.rs:16-20) *)
Fixpoint iter_calls {E} (m : mode) (t : table) (n : nat) (i : N) : outcome E (list (option entry) * N) :=
  match n with
  | O => Ok ([], i)
  | S n' =>
      ri <- iter_next m t i ;;
      rest <- iter_calls m t n' (snd ri) ;;
      Ok (fst ri :: fst rest, snd rest)
  end.

(* ------------------------------------------------------------------ *)
(* The loop of HpackModel.v (a `for` loop, which stops at the first None) is made of these calls. *)
Lemma iter_from_next {E} m t fuel i :
  @iter_from E m (S fuel) t i =
  (ri <- iter_next m t i ;;
   match fst ri with None => Ok [] | Some e => l <- iter_from m fuel t (snd ri) ;; Ok (e :: l) end).
Proof. unfold iter_next. cbn [iter_from]. destruct (u_add m 32 i 1); reflexivity. Qed.

Lemma iter_calls_get {E} m t n : forall i, i + N.of_nat n < 2 ^ 32 ->
  @iter_calls E m t n i = Ok (map (fun k => table_get t (i + N.of_nat k)) (seq 0 n), i + N.of_nat n).
Proof.
  induction n as [|n IH]; intros i Hi; cbn [iter_calls].
  - rewrite N.add_0_r. reflexivity.
  - unfold iter_next. cbv zeta. rewrite u_add_ok by lia. cbn [bind fst snd]. rewrite IH by lia. cbn [bind fst snd seq map].
    rewrite <- seq_shift, map_map, N.add_0_r. f_equal. f_equal; [|lia]. f_equal. apply map_ext. intros k. f_equal. lia.
Qed.

Lemma get_nth t k : table_get t (1 + N.of_nat k) = nth_error (rfc_static ++ inner t) k.
Proof.
  rewrite get_lookup. unfold lookup. replace (1 + N.of_nat k =? 0) with false by (symmetry; apply N.eqb_neq; lia).
  f_equal. lia.
Qed.

Lemma map_nth {A} (l : list A) : forall n k, (n <= k)%nat -> map (nth_error l) (seq 0 n) = firstn n (map Some l ++ repeat None k).
Proof.
  induction l as [|a l IH]; intros n k H.
  - cbn [map app]. replace k with (n + (k - n))%nat by lia. rewrite repeat_app, firstn_app, repeat_length, Nat.sub_diag.
    rewrite firstn_all2 by (rewrite repeat_length; lia). cbn [firstn]. rewrite app_nil_r. clear H.
    assert (G : forall s, map (nth_error (@nil A)) (seq s n) = repeat None n).
    { induction n as [|n IHn]; intros s; [reflexivity|]. cbn. rewrite IHn. now destruct s. }
    apply G.
  - destruct n as [|n]; [reflexivity|]. cbn [seq map app firstn nth_error]. f_equal. rewrite <- seq_shift, map_map.
    cbn [nth_error]. apply IH. lia.
Qed.

Theorem iteration {E} m t n : N.of_nat n < 2 ^ 32 - 1 ->
  @iter_calls E m t n iter_start = Ok (firstn n (map Some (rfc_static ++ inner t) ++ repeat None n), 1 + N.of_nat n).
Proof.
  intros H. unfold iter_start. rewrite iter_calls_get by lia. f_equal. f_equal. rewrite <- map_nth by lia.
  apply map_ext. intros k. apply get_nth.
Qed.

Lemma iter_calls_app {E} m t a : forall b i,
  @iter_calls E m t (a + b) i =
  (x <- iter_calls m t a i ;; y <- iter_calls m t b (snd x) ;; Ok (fst x ++ fst y, snd y)).
Proof.
  induction a as [|a IH]; intros b i; cbn [iter_calls plus].
  - cbn [bind snd fst]. destruct (iter_calls m t b i) as [[l j]| | |]; reflexivity.
  - destruct (iter_next m t i) as [[r j]| | |]; cbn [bind fst snd]; try reflexivity. rewrite IH.
    destruct (iter_calls m t a j) as [[l k]| | |]; cbn [bind fst snd]; try reflexivity.
    destruct (iter_calls m t b k) as [[l' k']| | |]; reflexivity.
Qed.

(* After 2^32 - 2 calls the index is u32::MAX. *)
Lemma iter_at_end {E} m t : exists items,
  @iter_calls E m t (N.to_nat (2 ^ 32 - 2)) iter_start = Ok (items, 2 ^ 32 - 1).
Proof.
  eexists. rewrite iteration by (rewrite N2Nat.id; reflexivity). rewrite N2Nat.id. reflexivity.
Qed.

Theorem iteration_overflow {E} t : wf t ->
  @iter_calls E Debug t (N.to_nat (2 ^ 32 - 1)) iter_start = Panic /\
  exists items, @iter_calls E Release t (N.to_nat (2 ^ 32)) iter_start = Ok (items, iter_start) /\ In None items.
Proof.
  intros Hw. replace (N.to_nat (2 ^ 32 - 1)) with (N.to_nat (2 ^ 32 - 2) + 1)%nat by lia.
  replace (N.to_nat (2 ^ 32)) with (N.to_nat (2 ^ 32 - 2) + 2)%nat by lia.
  assert (G : table_get t (2 ^ 32 - 1) = None).
  { destruct (table_get t (2 ^ 32 - 1)) as [e|] eqn:E0; [|reflexivity]. rewrite get_lookup in E0.
    pose proof (lookup_index_small t _ e Hw E0) as H. vm_compute in H. discriminate. }
  rewrite !iter_calls_app. split.
  - destruct (@iter_at_end E Debug t) as (items & ->). cbn [bind snd fst iter_calls]. unfold iter_next. rewrite G. reflexivity.
  - destruct (@iter_at_end E Release t) as (items & ->). cbn [bind snd fst iter_calls]. unfold iter_next at 1. rewrite G.
    eexists. split; [reflexivity|]. apply in_or_app. right. left. reflexivity.
Qed.
