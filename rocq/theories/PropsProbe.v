(* Property theorems C121: what can be learned about a stored field by sending others next to
   it (RFC 7541 section 7.1).  The vocabulary is at the head of HpackProbe.v (probes, blurred,
   indistinct, first_at), in HpackTrust.v (written) and HpackApi.v (op_typed, sendable). *)
From Coq Require Import String Ascii.
From Verif Require Import Base HuffModel HuffSpec HpackStatic HpackModel HpackSpec HpackApi HpackTab HpackDerived HpackTrust HpackReach HpackProbe.
Open Scope list_scope.
Open Scope N_scope.

(* C121, only a whole right guess shows: encoders whose tables differ only in values of equal
   length that none of the calls asks the best-format search for (with that name) write the
   same octets and return the same results, whatever else is sent, indexed or resized. *)
Theorem C121_blind : forall m ops t t' dst, wf t -> wf t' -> Forall op_typed ops -> indistinct (probes ops) t t' ->
  snd (fst (run_ops m t dst ops)) = snd (fst (run_ops m t' dst ops)) /\ snd (run_ops m t dst ops) = snd (run_ops m t' dst ops) /\
  indistinct (probes ops) (fst (fst (run_ops m t dst ops))) (fst (fst (run_ops m t' dst ops))).
Proof. exact blind. Qed.
Print Assumptions C121_blind.

(* C121, how such tables come about: storing one value or another of equal length, not Huffman
   coded and without the best-format flag, takes equally many octets. *)
Theorem C121_stored : forall (asked : field_line -> Prop) m t n v v' fl,
  wf t -> input_ok (Literal n v fl) -> input_ok (Literal n v' fl) ->
  sendable (Literal n v fl) -> sendable (Literal n v' fl) ->
  N.testbit fl 1 = false -> N.testbit fl 4 = false -> List.length v = List.length v' -> ~ asked (n, v) -> ~ asked (n, v') ->
  List.length (written m t [Send (Literal n v fl)]) = List.length (written m t [Send (Literal n v' fl)]) /\
  indistinct asked (fst (fst (hencode m t (Literal n v fl) []))) (fst (fst (hencode m t (Literal n v' fl) []))).
Proof. exact stored_blur. Qed.
Print Assumptions C121_stored.

(* C121, one guess tells two tables (with the same names and lengths of values) apart exactly
   if its first index is not the same in both. *)
Theorem C121_guess_iff : forall m t t' n v fl, wf t -> wf t' -> indistinct (fun _ => False) t t' ->
  input_ok (Literal n v fl) -> sendable (Literal n v fl) -> N.testbit fl 4 = true ->
  (written m t [Send (Literal n v fl)] = written m t' [Send (Literal n v fl)] <->
   forall i, first_at t (n, v) i <-> first_at t' (n, v) i).
Proof. exact guess_iff. Qed.
Print Assumptions C121_guess_iff.

(* C121, and a right guess is seen by its length alone: one octet exactly if the field is at
   an index below 127. *)
Theorem C121_guess_length : forall m t n v fl, wf t ->
  input_ok (Literal n v fl) -> sendable (Literal n v fl) -> N.testbit fl 4 = true ->
  (List.length (written m t [Send (Literal n v fl)]) = 1%nat <-> exists i, i < 127 /\ first_at t (n, v) i).
Proof. exact guess_length. Qed.
Print Assumptions C121_guess_length.

(* A cookie k=s3 or k=t4 stored behind another field; guesses k=s4, k=s, the same value under
   another name, a reference to the cookie, its name with another value stored, a size update
   that evicts it.  Then the right guess. *)
Definition probe_t (v : string) : table := mkDyn [(octets "a", octets "x"); (octets "k", octets v)] 69 140.
Definition wrong_guesses : list op :=
  [Send (Literal (octets "k") (octets "s4") 20); Send (Literal (octets "k") (octets "s") 16); Send (Literal (octets "l") (octets "s3") 23);
   Send (Indexed 65); Send (IndexedName 65 (octets "s3") 6); Resize 70; Send (Literal (octets "k") (octets "s4") 20)].
Example C121_case : forall m,
  wf (probe_t "s3") /\ wf (probe_t "t4") /\ Forall op_typed wrong_guesses /\
  indistinct (probes wrong_guesses) (probe_t "s3") (probe_t "t4") /\
  written m (probe_t "s3") wrong_guesses = written m (probe_t "t4") wrong_guesses /\
  List.length (written m (probe_t "s3") wrong_guesses) = 27%nat /\
  first_at (probe_t "s3") (octets "k", octets "s3") 63 /\
  written m (probe_t "s3") [Send (Literal (octets "k") (octets "s3") 16)] = [191] /\
  List.length (written m (probe_t "t4") [Send (Literal (octets "k") (octets "s3") 16)]) = 5%nat.
Proof.
  intros m. refine (conj _ (conj _ (conj _ (conj _ (conj _ (conj _ (conj _ (conj _ _)))))))).
  - unfold wf. repeat split; vm_compute; (reflexivity || discriminate).
  - unfold wf. repeat split; vm_compute; (reflexivity || discriminate).
  - unfold wrong_guesses. repeat (apply Forall_cons; [|]); try apply Forall_nil; cbn [op_typed input_ok]; repeat split; try apply octets_bytes; vm_compute; reflexivity.
  - split; [reflexivity|]. unfold probe_t. cbn [inner]. constructor; [apply blurred_refl|]. constructor; [|constructor].
    refine (conj eq_refl (conj eq_refl (or_intror (conj _ _)))); intros (fl & H & _); unfold wrong_guesses in H; cbn [In fst snd] in H;
      repeat match type of H with _ \/ _ => destruct H as [H|H] end; try contradiction; try discriminate H;
      injection H; intros; discriminate.
  - destruct m; vm_compute; reflexivity.
  - destruct m; vm_compute; reflexivity.
  - split; [vm_compute; reflexivity|]. intros j Hj E. rewrite get_lookup in E. destruct (N.le_gt_cases j 61) as [L|L].
    + destruct (N.eq_dec j 0) as [->|N0]; [discriminate E|]. rewrite lookup_static in E by lia. apply nth_error_In in E.
      assert (X : existsb (fun e => list_eqb (fst e) (octets "k")) rfc_static = true) by (apply existsb_exists; eexists; split; [exact E|vm_compute; reflexivity]).
      vm_compute in X. discriminate X.
    + replace j with (62 + 0) in E by lia. rewrite lookup_dynamic in E. discriminate E.
  - destruct m; vm_compute; reflexivity.
  - destruct m; vm_compute; reflexivity.
Qed.
