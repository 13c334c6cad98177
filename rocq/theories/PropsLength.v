(* Property theorems C84 (the table iterator, call by call) and C85 (sizes of encoded headers).
   The vocabulary is at the heads of HpackIter.v and HpackLength.v. *)
From Coq Require Import String Ascii.
From Verif Require Import Base HuffModel HuffSpec HpackStatic HpackModel HpackSpec HpackApi HpackTab HpackEnc HpackDerived HpackMore HpackIter HpackLength.
Open Scope list_scope.
Open Scope N_scope.

(* C84: n calls of next, n < 2^32 - 1, give the static entries, then the dynamic ones, newest
   first, then None as often as asked. *)
Theorem C84_items : forall E m t n, N.of_nat n < 2 ^ 32 - 1 ->
  iter_calls m t n iter_start =
    Ok (E := E) (firstn n (map Some (rfc_static ++ inner t) ++ repeat None n), 1 + N.of_nat n).
Proof. intros E m t n. apply iteration. Qed.
Print Assumptions C84_items.

(* C84: from any index (the field is public) the items are those get() has. *)
Theorem C84_any_index : forall E m t n i, i + N.of_nat n < 2 ^ 32 ->
  iter_calls m t n i = Ok (E := E) (map (fun k => table_get t (i + N.of_nat k)) (seq 0 n), i + N.of_nat n).
Proof. intros E m t n. apply iter_calls_get. Qed.
Print Assumptions C84_any_index.

(* C84: a `for` loop over iter() (C19_iter) makes these calls up to the first None. *)
Theorem C84_loop : forall E m t fuel i,
  iter_from m (S fuel) t i =
  (ri <- iter_next m t i ;;
   match fst ri with None => Ok (E := E) [] | Some e => l <- iter_from m fuel t (snd ri) ;; Ok (e :: l) end).
Proof. intros E m t. apply iter_from_next. Qed.
Print Assumptions C84_loop.

(* C84: the bound is sharp: the index is a u32.  A debug build panics in call number
   2^32 - 1; a release build is at the start again after 2^32 calls. *)
Theorem C84_sharp : forall E t, wf t ->
  iter_calls Debug t (N.to_nat (2 ^ 32 - 1)) iter_start = Panic (E := E) /\
  exists items, iter_calls Release t (N.to_nat (2 ^ 32)) iter_start = Ok (E := E) (items, iter_start) /\ In None items.
Proof. intros E t. apply iteration_overflow. Qed.
Print Assumptions C84_sharp.

Example C84_case : forall m, let t := mkDyn [(octets "a", octets "b")] 34 4096 in
  wf t /\
  match iter_calls (E := enc_error) m t 64 iter_start with
  | Ok (items, i) => nth 0 items None = Some (octets ":authority", []) /\
      nth 60 items None = Some (octets "www-authenticate", []) /\
      skipn 61 items = [Some (octets "a", octets "b"); None; None] /\ i = 65
  | _ => False
  end.
Proof. intros m. split; [repeat split; vm_compute; (reflexivity || discriminate)|]. destruct m; vm_compute; auto. Qed.

(* C85: exactly how many octets encode appends. *)
Theorem C85_exact : forall m t f dst r bs t', wf t -> input_ok f -> chosen (inner t) f r -> strings_within U32_MAX r ->
  hencode m t f dst = ((t', dst ++ bs), Ok tt) -> N.of_nat (List.length bs) = repr_octets r.
Proof. exact hencode_octets. Qed.
Print Assumptions C85_exact.

Theorem C85_exact_update : forall m t n dst dst' t' r, wf t -> n < 2 ^ 32 -> encoder_update_max m t n dst = ((t', dst'), r) ->
  exists bs, r = Ok tt /\ dst' = dst ++ bs /\ N.of_nat (List.length bs) = int_octets 5 n /\ 1 <= N.of_nat (List.length bs) <= 6.
Proof. exact update_octets. Qed.
Print Assumptions C85_exact_update.

(* C85: whatever the table holds, the bound depends on the field alone. *)
Theorem C85_bound : forall m t f dst dst' t', wf t -> input_ok f -> hencode m t f dst = ((t', dst'), Ok tt) ->
  exists bs, dst' = dst ++ bs /\ 1 <= N.of_nat (List.length bs) <= field_bound f.
Proof. exact hencode_bound. Qed.
Print Assumptions C85_bound.

(* C85: whole sessions: at most the size of the header list (RFC 7540 section 6.5.2), four
   times that if Huffman coding is asked for, plus six octets for each size update. *)
Theorem C85_session : forall m ops t dst, wf t -> Forall op_typed ops -> no_overflow (snd (run_ops m t dst ops)) ->
  exists t' out, run_ops m t dst ops = (t', dst ++ out, snd (meaning (abs t) ops)) /\
    N.of_nat (List.length out) <= 4 * list_size (snd (fst (meaning (abs t) ops))) + 6 * resizes ops /\
    (Forall plain_op ops -> N.of_nat (List.length out) <= list_size (snd (fst (meaning (abs t) ops))) + 6 * resizes ops).
Proof. intros m ops. apply session_size. Qed.
Print Assumptions C85_session.

(* A value of 200 octets, plain behind an indexed name (index and length take two octets each),
   and Huffman coded at 30 bits an octet. *)
Example C85_case :
  let plain := IndexedName 20 (repeat 97 200) 0 in
  let coded := Literal (octets "k") (repeat 10 200) 6 in
  input_ok plain /\ input_ok coded /\
  chosen (inner encoder_default) plain (RLiteral WithoutIndexing (NameIndex 20) false (repeat 97 200)) /\
  repr_octets (RLiteral WithoutIndexing (NameIndex 20) false (repeat 97 200)) = 204 /\
  field_bound plain = 211 /\ field_bound coded = 764 /\
  forall m, List.length (snd (fst (hencode m encoder_default plain []))) = 204%nat /\
            List.length (snd (fst (hencode m encoder_default coded []))) = 756%nat /\
            snd (hencode m encoder_default coded []) = Ok tt.
Proof.
  cbv zeta. split; [|split; [|split; [|split; [|split; [|split]]]]].
  - cbn [input_ok]. split; [reflexivity|]. split; [|reflexivity]. apply Forall_forall. intros x H. apply repeat_spec in H. subst. reflexivity.
  - cbn [input_ok]. split; [apply octets_bytes|]. split; [|reflexivity]. apply Forall_forall. intros x H. apply repeat_spec in H. subst. reflexivity.
  - apply (ch_indexed_name (inner encoder_default) 20 (repeat 97 200) 0 (octets "access-control-allow-origin", [])). reflexivity.
  - vm_compute. reflexivity.
  - vm_compute. reflexivity.
  - vm_compute. reflexivity.
  - intros m. destruct m; vm_compute; auto.
Qed.
