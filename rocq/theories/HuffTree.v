(* Specification for the flattener (C10): walking a code tree bit by bit.
   A code table is a list of bit strings; the symbol of a code is its index. *)
From Verif Require Import Base.

(* [p] is an inner node of the code tree: some code extends it. *)
Definition inner (cs : list (list bool)) (p : list bool) : Prop :=
  exists c, In c cs /\ prefix p c /\ (length p < length c)%nat.

(* No code is a prefix of another one. *)
Definition prefix_free_codes (cs : list (list bool)) : Prop :=
  forall i j a b, nth_error cs i = Some a -> nth_error cs j = Some b ->
    prefix a b -> i = j.

(* Result of walking from node [p] along some bits: *)
Inductive walked :=
| Symbol (k : nat) (unread : nat)  (* the code of symbol k is complete, [unread] bits remain *)
| Node (p : list bool)           (* all bits read, arrived at inner node p *)
| Dead.                          (* no code starts like this *)

Inductive walk (cs : list (list bool)) : list bool -> list bool -> walked -> Prop :=
| walk_symbol p b rest k :
    nth_error cs k = Some (p ++ [b]) ->
    walk cs p (b :: rest) (Symbol k (length rest))
| walk_step p b rest r :
    ~ In (p ++ [b]) cs -> walk cs (p ++ [b]) rest r -> walk cs p (b :: rest) r
| walk_node p : inner cs p -> walk cs p [] (Node p)
| walk_dead p : ~ inner cs p -> walk cs p [] Dead.

(* The nodes a chunked walk can stop at: the root and the inner nodes whose
   depth is a multiple of the chunk size. *)
Definition chunk_node (sp : nat) (cs : list (list bool)) (p : list bool) : Prop :=
  p = [] \/ (inner cs p /\ exists k, length p = (k * sp)%nat).

(* What a matrix cell (next row, symbol, leftover) must say about a walk, when
   row i of the matrix stands for the node [nth i rows]. *)
Definition cell_says (rows : list (list bool)) (c : option N * option N * N)
           (r : walked) : Prop :=
  match r with
  | Symbol k unread => c = (None, Some (N.of_nat k), N.of_nat unread)
  | Node p => exists j, nth_error rows j = Some p /\ c = (Some (N.of_nat j), None, 0)
  | Dead => c = (None, None, 0)
  end.

(* The matrix [t] represents the code tree of [cs] read [sp] bits at a time. *)
Definition represents (sp : nat) (cs : list (list bool))
           (t : list (list (option N * option N * N))) : Prop :=
  exists rows : list (list bool),
    length rows = length t /\ nth_error rows 0 = Some [] /\ NoDup rows /\
    (forall p, In p rows <-> chunk_node sp cs p) /\
    Forall (fun row => length row = (2 ^ sp)%nat) t /\
    forall i p chunk row, nth_error rows i = Some p -> nth_error t i = Some row ->
      length chunk = sp ->
      exists c r, nth_error row (N.to_nat (val chunk)) = Some c /\
                  walk cs p chunk r /\ cell_says rows c r.
