(* C112: header blocks are unambiguous. *)
From Verif Require Import Base HuffTables HuffModel HuffSpec Leb HpackStatic HpackModel
  HpackSpec HpackApi HpackInt HpackStr HpackTab HpackDec HpackEnc HpackDerived HpackMore HpackUnambig.
Open Scope list_scope.
Open Scope N_scope.

(* [meaning] gives the headers (with flags) that a sequence of calls sends; no_overflow rules
   out the calls that refuse a string too long to be sent. *)
(* Different header sequences never share their octets: if two sequences of calls on equal
   encoders wrote the same octets, they sent the same headers with the same flags, and left
   equal encoders. *)
Theorem C112_same_octets : forall m m' t ops1 ops2 t1 t2 out rs1 rs2, wf t -> Forall op_typed ops1 -> Forall op_typed ops2 ->
  run_ops m t [] ops1 = (t1, out, rs1) -> run_ops m' t [] ops2 = (t2, out, rs2) -> no_overflow rs1 -> no_overflow rs2 ->
  snd (fst (meaning (abs t) ops1)) = snd (fst (meaning (abs t) ops2)) /\ t1 = t2.
Proof.
  intros m m' t ops1 ops2 t1 t2 out rs1 rs2 W T1 T2 E1 E2 N1 N2.
  destruct (session_prefix m m' t ops1 ops2 t1 t2 out out rs1 rs2 [] W T1 T2 E1 E2 N1 N2 (eq_sym (app_nil_r out))) as [_ H].
  destruct (H eq_refl) as [-> ->]. now split.
Qed.
Print Assumptions C112_same_octets.

(* Nor is a block the beginning of another, unless its headers are the beginning of the
   other's. *)
Theorem C112_prefix : forall m m' t ops1 ops2 t1 t2 out1 x rs1 rs2, wf t -> Forall op_typed ops1 -> Forall op_typed ops2 ->
  run_ops m t [] ops1 = (t1, out1, rs1) -> run_ops m' t [] ops2 = (t2, out1 ++ x, rs2) -> no_overflow rs1 -> no_overflow rs2 ->
  exists hs, snd (fst (meaning (abs t) ops2)) = snd (fst (meaning (abs t) ops1)) ++ hs.
Proof.
  intros m m' t ops1 ops2 t1 t2 out1 x rs1 rs2 W T1 T2 E1 E2 N1 N2.
  exact (proj1 (session_prefix m m' t ops1 ops2 t1 t2 out1 (out1 ++ x) rs1 rs2 x W T1 T2 E1 E2 N1 N2 eq_refl)).
Qed.
Print Assumptions C112_prefix.

(* Which fields share their octets: exactly those for which the same representation is
   chosen ([chosen]: index, literal kind, name by index or in full, Huffman coding). *)
Theorem C112_fields : forall m m' t f1 f2 t1 t2 b1 b2, wf t -> input_ok f1 -> input_ok f2 ->
  hencode m t f1 [] = ((t1, b1), Ok tt) -> hencode m' t f2 [] = ((t2, b2), Ok tt) ->
  (b1 = b2 <-> exists r, chosen (inner t) f1 r /\ chosen (inner t) f2 r).
Proof. exact fields_same. Qed.
Print Assumptions C112_fields.

(* Literal fields sent without the search flag differ in their octets as soon as
   they differ in name, value, kind or coding. *)
Theorem C112_literals : forall m m' t n1 v1 f1 n2 v2 f2 t1 t2 b, wf t ->
  bytes n1 -> bytes v1 -> f1 < 256 -> bytes n2 -> bytes v2 -> f2 < 256 -> N.testbit f1 4 = false -> N.testbit f2 4 = false ->
  hencode m t (Literal n1 v1 f1) [] = ((t1, b), Ok tt) -> hencode m' t (Literal n2 v2 f2) [] = ((t2, b), Ok tt) ->
  n1 = n2 /\ v1 = v2 /\ kind_of f1 = kind_of f2 /\ N.testbit f1 0 = N.testbit f2 0 /\ N.testbit f1 1 = N.testbit f2 1.
Proof.
  intros m m' t n1 v1 f1 n2 v2 f2 t1 t2 b W A1 A2 A3 B1 B2 B3 Z1 Z2 E1 E2.
  pose proof (proj1 (fields_same m m' t (Literal n1 v1 f1) (Literal n2 v2 f2) t1 t2 b b W (conj A1 (conj A2 A3)) (conj B1 (conj B2 B3)) E1 E2) eq_refl) as (r & C1 & C2).
  inversion C1 as [| |? ? ? Q1|? ? ? ? Q1]; subst; [|congruence]. inversion C2 as [| |? ? ? Q2|? ? ? ? Q2]; subst; [|congruence]. auto.
Qed.
Print Assumptions C112_literals.

(* Instances: ":method: GET" by index and by search have the same octets, and send the same
   header; the empty value plain and Huffman coded have not. *)
Example C112_holds_of :
  let get := ([58; 109; 101; 116; 104; 111; 100], [71; 69; 84]) in
  run_ops Debug table_default [] [Send (Indexed 2)] = (table_default, [130], [Ok tt]) /\
  run_ops Release table_default [] [Send (Indexed 100); Send (Literal (fst get) (snd get) 20)] = (table_default, [130], [Err EInvalidIndex; Ok tt]) /\
  snd (fst (meaning (abs table_default) [Send (Indexed 2)])) = [(fst get, snd get, 0)] /\
  snd (fst (meaning (abs table_default) [Send (Indexed 100); Send (Literal (fst get) (snd get) 20)])) = [(fst get, snd get, 0)].
Proof. vm_compute. auto. Qed.
Example C112_coding_shows :
  snd (fst (hencode Debug table_default (Literal [97] [] 0) [])) = [0; 1; 97; 0] /\
  snd (fst (hencode Debug table_default (Literal [97] [] 2) [])) = [0; 1; 97; 128].
Proof. vm_compute. auto. Qed.
(* On different encoders the same octets can mean different headers. *)
Example C112_same_encoder_needed :
  let t1 := mkDyn [([97], [98])] 34 200 in
  let t2 := mkDyn [([97], [99])] 34 200 in
  snd (fst (run_ops Debug t1 [] [Send (Indexed 62)])) = snd (fst (run_ops Debug t2 [] [Send (Indexed 62)])) /\
  snd (fst (meaning (abs t1) [Send (Indexed 62)])) <> snd (fst (meaning (abs t2) [Send (Indexed 62)])).
Proof. split; [vm_compute; reflexivity|vm_compute; discriminate]. Qed.
