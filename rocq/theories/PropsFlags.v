(* Property theorem C90: where decoded headers and table entries come from, and what the
   flags say.  The vocabulary (spelled, known_name, comes_from) is at the head of
   HpackFlags.v; stored and timeline (the headers flagged 0x4, newest first, before the
   entries the table had) at the head of HpackRetain.v. *)
From Coq Require Import String Ascii.
From Verif Require Import Base HuffTables HuffModel HuffSpec Leb HpackStatic HpackModel
  HpackSpec HpackApi HpackInt HpackStr HpackTab HpackDec HpackEnc HpackDerived HpackMore HpackMore2 HpackRetain HpackFlags.
Open Scope list_scope.
Open Scope N_scope.

(* C90: whatever the input and however decoding ends. *)
Theorem C90_decode : forall m d buf dst d1 rest dst1 o, wf (dtable d) -> bytes buf ->
  hdecode m d buf dst = ((d1, rest, dst1), o) ->
  exists used hs, buf = used ++ rest /\ dst1 = dst ++ hs /\
    prefix (inner (dtable d1)) (timeline (inner (dtable d)) hs) /\
    forall j h, nth_error hs j = Some h -> comes_from used (timeline (inner (dtable d)) (firstn j hs)) h.
Proof. exact decode_provenance. Qed.
Print Assumptions C90_decode.

Theorem C90_decode_exact : forall m cap d buf dst d1 rest dst1 o, wf (dtable d) -> bytes buf ->
  hdecode_exact m cap d buf dst = ((d1, rest, dst1), o) ->
  exists used hs, buf = used ++ rest /\ dst1 = dst ++ hs /\
    prefix (inner (dtable d1)) (timeline (inner (dtable d)) hs) /\
    forall j h, nth_error hs j = Some h -> comes_from used (timeline (inner (dtable d)) (firstn j hs)) h.
Proof. exact decode_exact_provenance. Qed.
Print Assumptions C90_decode_exact.

(* "The decoder will not index fields unless 0x4 flag is returned" (decoder/mod.rs:83-84). *)
Theorem C90_unflagged : forall m d buf dst d1 rest hs o, wf (dtable d) -> bytes buf ->
  hdecode m d buf dst = ((d1, rest, dst ++ hs), o) -> Forall (fun h => snd h <> 4) hs ->
  prefix (inner (dtable d1)) (inner (dtable d)).
Proof. exact unflagged. Qed.
Print Assumptions C90_unflagged.

(* A literal with indexing, a never indexed one with a new name, a reference to the first,
   a size update, an error. *)
Example C90_case : forall m,
  let hs := [(octets "a", octets "b", 4); (octets "c", octets "d", 8); (octets "a", octets "b", 0)] in
  hdecode m decoder_default [64; 1; 97; 1; 98; 16; 1; 99; 1; 100; 190; 63; 3; 255] [] =
    ((mkDec FiveBits 4096 (mkDyn [(octets "a", octets "b")] 34 34), [255], hs), Panic) /\
  timeline [] hs = [(octets "a", octets "b")] /\
  comes_from [64; 1; 97; 1; 98] [] (octets "a", octets "b", 4) /\
  ~ comes_from [64; 1; 97; 1; 98] [] (octets "a", octets "b", 5) /\
  ~ comes_from [190] [] (octets "a", octets "b", 0).
Proof.
  intros m hs. split; [destruct m; vm_compute; reflexivity|]. split; [reflexivity|].
  assert (St : forall a c x, spelled (a ++ [1; x] ++ c) [x]).
  { intros a c x. exists false, a, [1; x], c. split; [reflexivity|]. apply (string_plain 5 code_padding [1] [x]).
    apply (int_short 5 7 0 1); [reflexivity|lia]. }
  split; [|split].
  - right. split; [left; apply (St [64] [1; 98])|]. split; [apply (St [64; 1; 97] [])|auto].
  - intros [[_ H]|(_ & _ & H)]; [discriminate|]. destruct H as [H|[H|H]]; discriminate.
  - intros [[H _]|(_ & (h & x & b & c & E & H) & _)].
    + rewrite app_nil_r in H. assert (B : existsb (fun e => if list_eq_dec N.eq_dec (fst e) (octets "a") then true else false) rfc_static = false)
        by (vm_compute; reflexivity).
      assert (existsb (fun e => if list_eq_dec N.eq_dec (fst e) (octets "a") then true else false) rfc_static = true); [|congruence].
      apply existsb_exists. exists (octets "a", octets "b"). split; [exact H|]. cbn [fst].
      destruct (list_eq_dec N.eq_dec (octets "a") (octets "a")); congruence.
    + apply string_wire_two in H; [|discriminate]. apply (f_equal (@List.length N)) in E. rewrite !app_length in E. cbn in E. lia.
Qed.
