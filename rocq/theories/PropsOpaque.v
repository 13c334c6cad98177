(* Property theorems C118: names and values are opaque.  The vocabulary is at the head of
   HpackOpaque.v (stands_for, repr_like, header_like, table_like, op_like, one_to_one, masks)
   and in HpackSpec.v (wires, wire_octets, reprs) and HpackApi.v (op_ok, run_ops). *)
From Coq Require Import String Ascii.
From Verif Require Import Base HuffModel HuffSpec HpackStatic HpackModel HpackSpec HpackApi HpackTab HpackDerived HpackOpaque.
Open Scope list_scope.
Open Scope N_scope.

(* C118, the decoder: let R say which string may stand for which, of the same length, with the
   strings of the static table standing for themselves.  Any input splits into what is decoded
   and a rest; if the decoded part is rewritten with other strings (Huffman coded or not, and
   with integers of any width), and so are the decoder's table entries, then the same number of
   headers comes out, with the same flags and with strings that stand for the former ones; the
   table has the same size and maximum, with such strings; the rest is the same; and the result
   is the same, but for the number of octets if that has changed. *)
Theorem C118_decode : forall R, stands_for R -> forall m m' d d' buf dst dst', wf (dtable d) -> dlimit d = dlimit d' ->
  table_like R (dtable d) (dtable d') -> bytes buf ->
  exists prs rest d1 hs o, buf = wire_octets prs ++ rest /\ wires 5 code_padding prs /\
    hdecode m d buf dst = ((d1, rest, dst ++ hs), o) /\ dlimit d1 = dlimit d /\ dspeed d1 = dspeed d /\
    forall prs', wires 5 code_padding prs' -> bytes (wire_octets prs') ->
      Forall2 (fun p p' => repr_like R (snd p) (snd p')) prs prs' ->
      exists d1' hs' o', hdecode m' d' (wire_octets prs' ++ rest) dst' = ((d1', rest, dst' ++ hs'), o') /\
        Forall2 (header_like R) hs hs' /\ table_like R (dtable d1) (dtable d1') /\
        dlimit d1' = dlimit d' /\ dspeed d1' = dspeed d' /\
        (match o, o' with Ok _, Ok _ => True | _, _ => o = o' end) /\
        (Forall2 (fun p p' => List.length (fst p) = List.length (fst p')) prs prs' -> o = o').
Proof. exact decode_like. Qed.
Print Assumptions C118_decode.

(* C118, masking: a function on strings that keeps their length and leaves the static table
   alone may be applied to the plain strings of a block where they stand and to the table; the
   decoder then gives the headers with the function applied, the same flags, the same result. *)
Theorem C118_mask : forall f, masks f -> forall m m' d buf dst dst', wf (dtable d) -> bytes buf ->
  exists prs rest d1 hs o, buf = wire_octets prs ++ rest /\ wires 5 code_padding prs /\
    hdecode m d buf dst = ((d1, rest, dst ++ hs), o) /\
    (Forall plain_repr (reprs prs) ->
     exists masked, List.length masked = List.length (wire_octets prs) /\
       hdecode m' (mask_decoder f d) (masked ++ rest) dst' =
         ((mask_decoder f d1, rest, dst' ++ map (mask_header f) hs), o)).
Proof. exact mask_block. Qed.
Print Assumptions C118_mask.

(* C118, the encoder: without Huffman coding, other strings of the same lengths give the same
   results, the same number of octets and a table of the same size, with such strings; with the
   best-format flag, if equal strings stand for equal ones and different for different ones. *)
Theorem C118_encode : forall R, stands_for R -> forall m m' limit ops ops', Forall2 (op_like R) ops ops' ->
  one_to_one R \/ Forall unsearched ops -> limit < 2 ^ 32 -> Forall (op_ok limit) ops -> Forall (op_ok limit) ops' ->
  forall t t' dst dst', wf t -> table_like R t t' ->
  exists t1 t1' out out' rs, run_ops m t dst ops = (t1, dst ++ out, rs) /\ run_ops m' t' dst' ops' = (t1', dst' ++ out', rs) /\
    List.length out = List.length out' /\ table_like R t1 t1'.
Proof. exact encode_like. Qed.
Print Assumptions C118_encode.

(* Stars for everything outside the static table. *)
Definition in_static (s : list N) : bool := existsb (fun e => list_eqb s (fst e) || list_eqb s (snd e)) rfc_static.
Definition stars (s : list N) : list N := if in_static s then s else repeat 42 (List.length s).
Lemma stars_mask : masks stars.
Proof.
  refine (conj _ (conj _ _)).
  - intros s. unfold stars. destruct (in_static s); [reflexivity|apply repeat_length].
  - intros s H. unfold stars. destruct (in_static s); [exact H|]. apply Forall_forall. intros x Hx. apply repeat_spec in Hx. now subst.
  - apply Forall_forall. intros e He. 
    assert (Q : forallb (fun e => in_static (fst e) && in_static (snd e)) rfc_static = true) by (vm_compute; reflexivity).
    rewrite forallb_forall in Q. specialize (Q e He). apply andb_prop in Q as [Q1 Q2]. unfold stars. now rewrite Q1, Q2.
Qed.

Definition opaque_table : table := mkDyn [(octets "a", octets "x"); (octets "b", octets "y")] 68 100.
Definition opaque_dec : decoder := set_table (decoder_with_dynamic_size 4096) opaque_table.
(* :method GET, authorization: pw (stored), the former [a: x], c: z (never indexed), no entry 70. *)
Definition opaque_block (pw c z : N -> N) : list N :=
  [130; 87; 2; pw 0; pw 1; 191; 16; 1; c 0; 1; z 0; 198].
Example C118_mask_case : forall m m',
  wf (dtable opaque_dec) /\
  hdecode m opaque_dec (opaque_block (fun i => 112 + i) (fun _ => 99) (fun _ => 122)) [] =
    ((set_table opaque_dec (mkDyn [(octets "authorization", [112; 113]); (octets "a", octets "x")] 81 100), [198],
      [(octets ":method", octets "GET", 0); (octets "authorization", [112; 113], 4); (octets "a", octets "x", 0); (octets "c", octets "z", 8)]),
     Err DInvalidIndex) /\
  hdecode m' (mask_decoder stars opaque_dec) (opaque_block (fun _ => 42) (fun _ => 42) (fun _ => 42)) [] =
    ((set_table opaque_dec (mkDyn [(octets "authorization", [42; 42]); ([42], [42])] 81 100), [198],
      [(octets ":method", octets "GET", 0); (octets "authorization", [42; 42], 4); ([42], [42], 0); ([42], [42], 8)]),
     Err DInvalidIndex).
Proof.
  intros m m'. refine (conj _ (conj _ _)).
  - unfold wf. repeat split; vm_compute; (reflexivity || discriminate).
  - destruct m; vm_compute; reflexivity.
  - destruct m'; vm_compute; reflexivity.
Qed.

(* For the encoder: x and y change places. *)
Definition swap (s : list N) : list N :=
  if list_eqb s (octets "x") then octets "y" else if list_eqb s (octets "y") then octets "x" else s.
Definition swaps (s s' : list N) : Prop := s' = swap s.
Lemma list_eqb_true a b : list_eqb a b = true -> a = b.
Proof. apply list_eqb_eq. Qed.
Lemma swap_swap s : swap (swap s) = s.
Proof.
  unfold swap. destruct (list_eqb s (octets "x")) eqn:E; [apply list_eqb_true in E; now subst|].
  destruct (list_eqb s (octets "y")) eqn:F; [apply list_eqb_true in F; now subst|]. now rewrite E, F.
Qed.
Lemma swaps_ok : stands_for swaps /\ one_to_one swaps.
Proof.
  refine (conj (conj _ _) _).
  - intros s s' ->. unfold swap. destruct (list_eqb s (octets "x")) eqn:E; [apply list_eqb_true in E; now subst|].
    destruct (list_eqb s (octets "y")) eqn:F; [apply list_eqb_true in F; now subst|]. reflexivity.
  - apply Forall_forall. intros e He.
    assert (Q : forallb (fun e => list_eqb (fst e) (swap (fst e)) && list_eqb (snd e) (swap (snd e))) rfc_static = true) by (vm_compute; reflexivity).
    rewrite forallb_forall in Q. specialize (Q e He). apply andb_prop in Q as [Q1 Q2]. split; now apply list_eqb_true.
  - intros s1 s1' s2 s2' -> ->. split; [congruence|]. intros E. rewrite <- (swap_swap s1), <- (swap_swap s2). now f_equal.
Qed.
Definition opaque_ops (x y : string) : list op :=
  [Send (Literal (octets "c") (octets x) 4); Send (Literal (octets "c") (octets y) 20); Resize 80;
   Send (Literal (octets "c") (octets y) 16); Send (IndexedName 62 (octets "w") 8); Send (Indexed 70)].
Example C118_encode_case : forall m,
  Forall2 (op_like swaps) (opaque_ops "x" "y") (opaque_ops "y" "x") /\
  table_like swaps opaque_table (mkDyn [(octets "a", octets "y"); (octets "b", octets "x")] 68 100) /\
  (exists t1, run_ops m opaque_table [] (opaque_ops "x" "y") =
    (t1, [64; 1; 99; 1; 120; 126; 1; 121; 63; 49; 190; 31; 47; 1; 119], [Ok tt; Ok tt; Ok tt; Ok tt; Ok tt; Err EInvalidIndex])) /\
  (exists t1, run_ops m (mkDyn [(octets "a", octets "y"); (octets "b", octets "x")] 68 100) [] (opaque_ops "y" "x") =
    (t1, [64; 1; 99; 1; 121; 126; 1; 120; 63; 49; 190; 31; 47; 1; 119], [Ok tt; Ok tt; Ok tt; Ok tt; Ok tt; Err EInvalidIndex])).
Proof.
  intros m. refine (conj _ (conj _ (conj _ _))).
  - repeat constructor.
  - unfold table_like. repeat constructor.
  - destruct m; eexists; vm_compute; reflexivity.
  - destruct m; eexists; vm_compute; reflexivity.
Qed.

(* With the best-format flag two strings must not come to stand for one: the second field is
   then found in the table. *)
Example C118_encode_needs : forall m,
  List.length (snd (fst (run_ops m (mkDyn [] 0 100) [] (opaque_ops "x" "y")))) <>
  List.length (snd (fst (run_ops m (mkDyn [] 0 100) [] (opaque_ops "x" "x")))).
Proof. intros m. destruct m; vm_compute; discriminate. Qed.
