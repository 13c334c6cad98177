(* Property theorems C71-C72 about the protobuf crate: arbitrary writers and messages
   cut off anywhere.  Vocabulary: ProtosSpec.v, ProtosApi.v and the specification part
   of ProtosIo.v ([dialogue], [taken], [sending], [complete]). *)
From Verif Require Import Base Leb ProtosModel ProtosSpec ProtosApi ProtosNum ProtosEnc ProtosDec ProtosDerived ProtosMore
  ProtosIo ProtosIoProofs.
Open Scope N_scope.

(* ------------------------------------------------------------------ *)
(* C71: encoding into an arbitrary writer. *)
Theorem C71_field : forall (W : Type) (write : W -> list N -> W * io_answer) fuel tag l t p bs w w' got o, honest write ->
  1 <= tag < 2 ^ 29 -> lit_ok l -> lit_wire l t p -> N.of_nat (length p) < 2 ^ 64 -> field_wire (tag, t, p) bs ->
  encode_to write fuel tag l w = ((w', got), o) ->
  exists tr, sending write fuel bs w tr w' got o.
Proof. intros W write. exact (encode_any write). Qed.
Print Assumptions C71_field.

Theorem C71_message : forall (W : Type) (write : W -> list N -> W * io_answer) fuel fs ws parts w w' got o, honest write ->
  Forall good_field fs -> Forall2 carries fs ws -> Forall2 field_wire ws parts ->
  encode_message_to write fuel fs w = ((w', got), o) ->
  exists tr, sending write fuel (concat parts) w tr w' got o.
Proof. intros W write. exact (encode_message_any write). Qed.
Print Assumptions C71_message.

Theorem C71_invalid_tag : forall (W : Type) (write : W -> list N -> W * io_answer) fuel tag l w, lit_ok l ->
  tag = 0 \/ 2 ^ 29 <= tag -> encode_to write fuel tag l w = ((w, []), Err PInvalidTag).
Proof. intros W write. exact (encode_any_bad_tag write). Qed.
Print Assumptions C71_invalid_tag.

(* A writer that always takes something gets everything. *)
Theorem C71_live : forall (W : Type) (write : W -> list N -> W * io_answer) fs ws parts w,
  (forall w data, data <> [] -> exists w' n, write w data = (w', Accepted n) /\ 1 <= n <= N.of_nat (length data)) ->
  Forall good_field fs -> Forall2 carries fs ws -> Forall2 field_wire ws parts ->
  exists w', encode_message_to write (length (concat parts)) fs w =
    ((w', concat parts), Ok (N.of_nat (length (concat parts)))).
Proof.
  intros W write fs ws parts w Hw Hg Hc Hf.
  assert (Hh : honest write).
  { intros w0 data w1 n Hd E. destruct (Hw w0 data Hd) as (w2 & k & E' & Hk). rewrite E in E'. injection E' as _ <-. apply Hk. }
  destruct (encode_message_to write (length (concat parts)) fs w) as [[w' got] o] eqn:E.
  destruct (encode_message_any write _ fs ws parts w w' got o Hh Hg Hc Hf E) as (tr & Hd & Hgot & Ho).
  assert (A : Forall (fun c => exists n, snd c = Accepted n /\ 1 <= n) tr).
  { clear - Hd Hw. induction Hd as [|w data w1 a tr w2 Hne Ew Hd IH]; constructor; [|exact IH].
    destruct (Hw w data Hne) as (w3 & n & E & Hn). rewrite Ew in E. injection E as _ ->. exists n. split; [reflexivity|lia]. }
  exists w'. destruct o as [n|e| |].
  - destruct Ho as (-> & -> & _). reflexivity.
  - destruct Ho as (_ & _ & tr0 & data & a & -> & Ha & _). apply Forall_app in A as [_ A]. inversion A as [|x y (n & En & Hn) _]; subst.
    cbn in En. destruct Ha as [->| ->]; [discriminate|]. injection En as <-. lia.
  - contradiction.
  - destruct Ho as (_ & _ & Hu). assert (agains tr = O) as Ez.
    { clear - A. unfold agains. induction A as [|[d a] tr (n & En & _) A IH]; [reflexivity|]. cbn in En. subst a. exact IH. }
    rewrite Ez in Hu. lia.
Qed.
Print Assumptions C71_live.

(* The encoder of ProtosModel.v, which the other theorems are about, is the same function
   on a Vec or a slice. *)
Theorem C71_same : forall tag l s, gpencode write_all tag l s = pencode tag l s.
Proof. exact encode_slice. Qed.
Print Assumptions C71_same.

(* A writer that takes two octets at a time, answers Interrupted before every other
   call, and refuses once five octets were taken. *)
Definition fussy (w : N * bool) (data : list N) : (N * bool) * io_answer :=
  let '(n, b) := w in
  if b then ((n, false), Again)
  else if 5 <=? n then ((n, true), Refused)
  else let k := N.min 2 (N.of_nat (length data)) in ((n + k, true), Accepted k).
Example C71_case :
  honest fussy /\
  encode_to fussy 20 1 (EBytes [1; 2]) (0, true) = (((4, true), [10; 2; 1; 2]), Ok 4) /\
  encode_to fussy 20 1 (EBytes [1; 2; 3; 4; 5; 6]) (0, true) = (((6, true), [10; 6; 1; 2; 3; 4]), Err PInterrupted) /\
  encode_to fussy 2 1 (EBytes [1; 2; 3; 4]) (0, true) = (((4, true), [10; 4; 1; 2]), OutOfFuel) /\
  field_wire (1, LengthDelimited, [1; 2]) [10; 2; 1; 2].
Proof.
  refine (conj _ (conj eq_refl (conj eq_refl (conj eq_refl _)))).
  - intros [n b] data w' k _ E. unfold fussy in E. destruct b; [discriminate|]. destruct (5 <=? n); [discriminate|].
    injection E as _ <-. lia.
  - exists 2, [10]. refine (conj eq_refl (conj (shortest_small 10 eq_refl) _)). exists [2].
    exact (conj (shortest_small 2 eq_refl) eq_refl).
Qed.

(* ------------------------------------------------------------------ *)
(* C72: messages cut off anywhere. *)
Theorem C72_truncated : forall m fs ws parts a b dst, Forall good_field fs -> Forall2 carries fs ws -> Forall2 field_wire ws parts ->
  a ++ b = concat parts ->
  exists k a' p1 rest, complete parts a k a' /\ idle p1 /\
    decode_fully m pdecoder_default a dst = ((decoder_of p1, rest, dst ++ firstn k ws), Ok tt) /\
    decode_fully m (decoder_of p1) (rest ++ b) (dst ++ firstn k ws) = ((pdecoder_default, [], dst ++ ws), Ok tt).
Proof. exact truncated_message. Qed.
Print Assumptions C72_truncated.

(* Together with C71: whatever an arbitrary writer took before it failed decodes to
   the first fields of the message. *)
Theorem C72_crash : forall m (W : Type) (write : W -> list N -> W * io_answer) fuel fs ws parts w w' got o dst, honest write ->
  Forall good_field fs -> Forall2 carries fs ws -> Forall2 field_wire ws parts ->
  encode_message_to write fuel fs w = ((w', got), o) ->
  exists k a' p1 rest, complete parts got k a' /\
    decode_fully m pdecoder_default got dst = ((decoder_of p1, rest, dst ++ firstn k ws), Ok tt) /\
    (forall n, o = Ok n -> firstn k ws = ws /\ p1 = Start /\ rest = []).
Proof. intros m W write. exact (crash_message m write). Qed.
Print Assumptions C72_crash.

Example C72_case : forall m,
  encode_message_to fussy 20 [(1, EBool true); (2, EBytes [1; 2; 3; 4])] (0, true) = (((6, true), [8; 1; 18; 4; 1; 2]), Err PInterrupted) /\
  decode_fully m pdecoder_default [8; 1; 18; 4; 1; 2] [] = ((decoder_of (GotLen 2 4), [1; 2], [(1, Varint, [1])]), Ok tt) /\
  decode_fully m (decoder_of (GotLen 2 4)) ([1; 2] ++ [3; 4]) [(1, Varint, [1])] =
    ((pdecoder_default, [], [(1, Varint, [1]); (2, LengthDelimited, [1; 2; 3; 4])]), Ok tt) /\
  complete [[8; 1]; [18; 4; 1; 2; 3; 4]] [8; 1; 18; 4; 1; 2] 1 [18; 4; 1; 2].
Proof.
  intros m. refine (conj _ (conj _ (conj _ _))); [reflexivity|destruct m; reflexivity|destruct m; reflexivity|].
  refine (conj eq_refl (conj _ _)); [cbn; lia|]. intros part [= <-]. cbn. lia.
Qed.
