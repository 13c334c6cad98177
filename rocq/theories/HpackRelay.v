(* Chains of intermediaries.  The environment is not code of the repository: each hop
   is an Encoder on one machine connected to a Decoder on the next, which hands the
   headers it decodes, with the flags reported, to the encoder of the following hop. *)
From Verif Require Import Base HuffModel HuffSpec HpackStatic HpackModel HpackSpec HpackApi HpackTab HpackEnc HpackDerived HpackMore HpackMore2.
Open Scope list_scope.
Open Scope N_scope.

(* ------------------------------------------------------------------ *)
(* Specification vocabulary. *)

Definition hop : Type := (table * decoder)%type.
(* The two ends agree, as they do when both are new. *)
Definition hop_ok (h : hop) : Prop := wf (fst h) /\ dtable (snd h) = fst h /\ dlimit (snd h) < 2 ^ 32.

(* One header list through all the hops; None: some call failed or left octets over. *)
Fixpoint relay (m m' : mode) (hops : list hop) (hs : list out_header) : list hop * option (list out_header) :=
  match hops with
  | [] => ([], Some hs)
  | (t, d) :: more =>
      let '(t1, out, rs) := run_ops m t [] (map (fun h => Send (as_literal h)) hs) in
      match hdecode m' d out [] with
      | ((d1, [], got), Ok _) =>
          let '(more', r) := relay m m' more got in ((t1, d1) :: more', r)
      | ((d1, _, _), _) => ((t1, d1) :: more, None)
      end
  end.

(* Several header lists, one after the other, through the same hops. *)
Fixpoint relay_all (m m' : mode) (hops : list hop) (msgs : list (list out_header))
  : list hop * list (option (list out_header)) :=
  match msgs with
  | [] => (hops, [])
  | hs :: msgs' =>
      let '(hops1, r) := relay m m' hops hs in
      let '(hops2, rs) := relay_all m m' hops1 msgs' in (hops2, r :: rs)
  end.

(* ------------------------------------------------------------------ *)
Lemma relay_ok m m' : forall hops hs, Forall hop_ok hops -> Forall forwardable hs ->
  exists hops', relay m m' hops hs = (hops', Some hs) /\ Forall hop_ok hops' /\ List.length hops' = List.length hops.
Proof.
  induction hops as [|[t d] hops IH]; intros hs Hh Hf; [exists []; auto|].
  inversion_clear Hh as [|? ? (Hw & Hd & Hl) Hr]. cbn [fst snd] in *. cbn [relay].
  destruct (forwarding m m' hs t d [] Hw Hd Hl Hf) as (t' & out & n & E & E2).
  assert (W : wf t').
  { assert (X := run_ops_wf m (map (fun h => Send (as_literal h)) hs) t [] Hw).
    rewrite E in X. apply X, Forall_map. eapply Forall_impl; [|exact Hf]. intros [[n0 v] f] (B1 & B2 & _ & _ & B3). cbn [fst snd] in *.
    cbn. split; [exact B1|]. split; [exact B2|]. destruct B3 as [->|[->| ->]]; reflexivity. }
  rewrite E, E2. cbn [app]. destruct (IH hs Hr Hf) as (h' & E3 & O & L). rewrite E3.
  exists ((t', set_table d t') :: h'). split; [reflexivity|]. split; [|cbn; lia].
  constructor; [|exact O]. unfold hop_ok, set_table; cbn. auto.
Qed.

Theorem relay_all_ok m m' : forall msgs hops, Forall hop_ok hops -> Forall (Forall forwardable) msgs ->
  exists hops', relay_all m m' hops msgs = (hops', map Some msgs) /\ Forall hop_ok hops' /\ List.length hops' = List.length hops.
Proof.
  induction msgs as [|hs msgs IH]; intros hops Hh Hf; [exists hops; auto|].
  inversion_clear Hf as [|? ? H1 H2]. cbn [relay_all map].
  destruct (relay_ok m m' hops hs Hh H1) as (h1 & -> & O1 & L1).
  destruct (IH h1 O1 H2) as (h2 & -> & O2 & L2). exists h2. split; [reflexivity|]. split; [exact O2|congruence].
Qed.
