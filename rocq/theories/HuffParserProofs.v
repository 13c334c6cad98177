(* The parser reads exactly the RFC layout. *)
From Verif Require Import Base Utf8 HuffTables HuffModel HuffSpec HuffAsset.
From Verif Require ProtosModel ProtosUtf8.
From Coq Require Import ZifyBool ZifyNat ZifyN.
Open Scope N_scope.

(* lines *)
Lemma lines_from_line old l : forall cur text, ~ In 10 l ->
  lines_from old cur (l ++ 10 :: text) = strip_cr (cur ++ l) :: lines_from old [] text.
Proof.
  induction l as [|c l IH]; intros cur text Hn; cbn [app lines_from].
  - now rewrite app_nil_r.
  - destruct (N.eqb_spec c 10) as [->|Hc]; [exfalso; apply Hn; now left|].
    rewrite IH by (intros H; apply Hn; now right). now rewrite <- app_assoc.
Qed.

Lemma lines_from_last old l : forall cur, ~ In 10 l ->
  lines_from old cur l =
  match cur ++ l with [] => [] | _ => [if old then strip_cr (cur ++ l) else cur ++ l] end.
Proof.
  induction l as [|c l IH]; intros cur Hn; cbn [lines_from].
  - rewrite app_nil_r. destruct cur; reflexivity.
  - destruct (N.eqb_spec c 10) as [->|Hc]; [exfalso; apply Hn; now left|].
    rewrite IH by (intros H; apply Hn; now right). now rewrite <- app_assoc.
Qed.

Lemma strip_cr_id l : last l 0 <> 13 -> strip_cr l = l.
Proof.
  intros H. unfold strip_cr. destruct (rev l) as [|c r] eqn:E; [reflexivity|].
  assert (Hl : l = rev r ++ [c]).
  { rewrite <- (rev_involutive l), E. reflexivity. }
  rewrite Hl in H. rewrite last_last in H.
  destruct c as [|pc]; [reflexivity|].
  do 4 (destruct pc as [pc|pc|]; try reflexivity).
  exfalso. now apply H.
Qed.

Lemma strip_cr_cr l : strip_cr (l ++ [13]) = l.
Proof. unfold strip_cr. rewrite rev_unit. apply rev_involutive. Qed.

Lemma ends_cr (l : list N) : last l 0 <> 13 \/ exists l', l = l' ++ [13].
Proof.
  destruct l as [|x l] using rev_ind; [left; discriminate|]. rewrite last_last.
  destruct (N.eq_dec x 13) as [->|]; eauto.
Qed.

Lemma text_lines_sound old text ls : text_lines old text ls -> lines old text = ls.
Proof.
  unfold lines. induction 1 as [|l Hne Hn Ho|l Ho Hn|l text ls Hn Hc H IH|l text ls Hn H IH].
  - reflexivity.
  - rewrite lines_from_last by exact Hn. cbn [app]. destruct l as [|c l]; [congruence|].
    destruct old; [|reflexivity]. rewrite strip_cr_id by now apply Ho. reflexivity.
  - rewrite lines_from_last.
    2: { intros Hi. apply in_app_iff in Hi as [Hi|[Hi|[]]]; [now apply Hn|discriminate]. }
    subst old. cbn [app]. rewrite strip_cr_cr. destruct l; reflexivity.
  - rewrite lines_from_line by exact Hn. cbn [app]. rewrite strip_cr_id by exact Hc. now rewrite IH.
  - replace (l ++ 13 :: 10 :: text) with ((l ++ [13]) ++ 10 :: text) by (now rewrite <- app_assoc).
    rewrite lines_from_line.
    2: { intros Hi. apply in_app_iff in Hi as [Hi|[Hi|[]]]; [now apply Hn|discriminate]. }
    cbn [app]. rewrite strip_cr_cr. now rewrite IH.
Qed.

Lemma cut_lf (text : list N) : ~ In 10 text \/ exists l r, text = l ++ 10 :: r /\ ~ In 10 l.
Proof.
  induction text as [|c text [IH|(l & r & -> & IH)]]; [left; intros []| |].
  - destruct (N.eq_dec c 10) as [->|Hc].
    + right. exists [], text. split; [reflexivity|intros []].
    + left. intros [H|H]; [congruence|now apply IH].
  - destruct (N.eq_dec c 10) as [->|Hc].
    + right. exists [], (l ++ 10 :: r). split; [reflexivity|intros []].
    + right. exists (c :: l), r. split; [reflexivity|]. intros [H|H]; [congruence|now apply IH].
Qed.

Lemma text_lines_total old : forall n text, (length text <= n)%nat -> exists ls, text_lines old text ls.
Proof.
  induction n as [|n IH]; intros text Hl.
  - destruct text; [|cbn [length] in Hl; lia]. exists []. constructor.
  - destruct (cut_lf text) as [Hn|(l & r & -> & Hn)].
    + destruct text as [|c text]; [exists []; constructor|].
      destruct old.
      * destruct (ends_cr (c :: text)) as [Hc|(l' & E)].
        -- exists [c :: text]. apply tl_last; [discriminate|exact Hn|now intros _].
        -- rewrite E in Hn |- *. exists [l']. apply tl_last_cr; [reflexivity|].
           intros Hi. apply Hn, in_app_iff. now left.
      * exists [c :: text]. apply tl_last; [discriminate|exact Hn|discriminate].
    + rewrite app_length in Hl. cbn [length] in Hl. destruct (IH r ltac:(lia)) as (ls & Hls).
      destruct (ends_cr l) as [Hc|(l' & ->)].
      * exists (l :: ls). now constructor.
      * exists (l' :: ls). rewrite <- app_assoc. cbn [app]. constructor; [|exact Hls].
        intros Hi. apply Hn, in_app_iff. now left.
Qed.

Lemma text_lines_unique old text : exists! ls, text_lines old text ls.
Proof.
  destruct (text_lines_total old (length text) text (le_n _)) as (ls & H).
  exists ls. split; [exact H|]. intros ls' H'.
  rewrite <- (text_lines_sound _ _ _ H). now apply text_lines_sound.
Qed.

Lemma text_lines_lines old text : text_lines old text (lines old text).
Proof.
  destruct (text_lines_total old (length text) text (le_n _)) as (ls & H).
  now rewrite (text_lines_sound _ _ _ H).
Qed.

Definition plain_line (l : list N) : Prop := ~ In 10 l /\ last l 0 <> 13.

Lemma text_lines_join old ls : Forall plain_line ls -> last ls [0] <> [] -> text_lines old (join_lines ls) ls.
Proof.
  induction 1 as [|l ls [Hn Hc] H IH]; intros Hlast; [constructor|].
  cbn [join_lines]. destruct ls as [|l2 ls].
  - cbn [last] in Hlast. now apply tl_last.
  - apply tl_lf; auto.
Qed.

Lemma text_lines_join_lf old ls : Forall plain_line ls ->
  text_lines old (flat_map (fun l => l ++ [10]) ls) ls.
Proof.
  induction 1 as [|l ls [Hn Hc] H IH]; [constructor|].
  cbn [flat_map]. rewrite <- app_assoc. cbn [app]. now apply tl_lf.
Qed.

(* UTF-8 *)
Definition cont (b : N) : Prop := 128 <= b < 192.

Lemma utf8_char_lead c : scalar_value c -> exists b tl, utf8_char c = b :: tl /\ ~ cont b /\ Forall cont tl.
Proof.
  intros Hs. unfold utf8_char, cont.
  assert (Hm : forall x, 128 <= 128 + x mod 64 < 192).
  { intros x. pose proof (N.mod_lt x 64 ltac:(lia)). lia. }
  destruct (N.ltb_spec c 128); [eexists _, _; split; [reflexivity|]; split; [lia|constructor]|].
  destruct (N.ltb_spec c 2048).
  { eexists _, _. split; [reflexivity|]. split.
    - pose proof (N.div_le_mono 128 c 64 ltac:(lia) ltac:(lia)) as H1. change (128 / 64) with 2 in H1. lia.
    - repeat constructor; apply Hm. }
  destruct (N.ltb_spec c 65536).
  { eexists _, _. split; [reflexivity|]. split; [generalize (c / 4096); intros; lia|]. repeat constructor; apply Hm. }
  eexists _, _. split; [reflexivity|]. split; [generalize (c / 262144); intros; lia|]. repeat constructor; apply Hm.
Qed.

Lemma utf8_split x : forall y, utf8_text (x ++ y) ->
  match y with [] => True | b :: _ => ~ cont b end -> utf8_text x /\ utf8_text y.
Proof.
  intros y (cs & Hcs & E) Hy. revert x E. induction Hcs as [|c cs Hc Hcs IH]; intros x E.
  - cbn [flat_map] in E. apply app_eq_nil in E as [-> ->]. split; exists []; now split.
  - cbn [flat_map] in E.
    destruct (utf8_char_lead c Hc) as (b & tl & Ec & Hb & Htl).
    destruct x as [|x0 x].
    { cbn [app] in E. split; [exists []; now split|]. exists (c :: cs). split; [now constructor|exact E]. }
    assert (Hlen : (length (utf8_char c) <= length (x0 :: x))%nat).
    { destruct (Nat.leb_spec (length (utf8_char c)) (length (x0 :: x))) as [|Hlt]; [assumption|]. exfalso.
      assert (Hnth : nth_error ((x0 :: x) ++ y) (length (x0 :: x)) = nth_error (utf8_char c) (length (x0 :: x))).
      { rewrite E. now apply nth_error_app1. }
      rewrite nth_error_app2, Nat.sub_diag in Hnth by lia.
      rewrite Ec in Hnth, Hlt. cbn [length nth_error] in Hnth, Hlt.
      destruct (nth_error tl (length x)) as [b'|] eqn:Et.
      - destruct y as [|y0 y]; [discriminate|]. cbn [nth_error] in Hnth. injection Hnth as ->.
        apply Hy. rewrite Forall_forall in Htl. apply Htl. eapply nth_error_In; eauto.
      - apply nth_error_None in Et. lia. }
    assert (Hx : x0 :: x = utf8_char c ++ skipn (length (utf8_char c)) (x0 :: x)).
    { rewrite <- (firstn_skipn (length (utf8_char c)) (x0 :: x)) at 1. f_equal.
      assert (Hf : firstn (length (utf8_char c)) ((x0 :: x) ++ y) = utf8_char c).
      { rewrite E, firstn_app, Nat.sub_diag, firstn_O, app_nil_r. apply firstn_all. }
      rewrite firstn_app in Hf. replace (length (utf8_char c) - length (x0 :: x))%nat with 0%nat in Hf by lia.
      now rewrite firstn_O, app_nil_r in Hf. }
    rewrite Hx in E |- *. rewrite <- app_assoc in E. apply app_inv_head in E.
    destruct (IH _ E) as [(cs' & H1 & E1) H2]. split; [|exact H2].
    exists (c :: cs'). split; [now constructor|]. cbn [flat_map]. now rewrite <- E1.
Qed.

Lemma utf8_head y : utf8_text y -> match y with [] => True | b :: _ => ~ cont b end.
Proof.
  intros (cs & Hcs & ->). destruct Hcs as [|c cs Hc Hcs]; [exact I|].
  cbn [flat_map]. destruct (utf8_char_lead c Hc) as (b & tl & -> & Hb & _). exact Hb.
Qed.

Lemma utf8_rest x y : utf8_text x -> utf8_text (x ++ y) -> utf8_text y.
Proof.
  intros (cs & Hcs & ->) H. eapply ProtosUtf8.utf8_valid_text; [apply le_n|].
  apply ProtosUtf8.utf8_text_valid in H. revert H. induction Hcs as [|c cs Hc Hcs IH]; [auto|].
  cbn [flat_map]. rewrite <- app_assoc, ProtosUtf8.utf8_valid_char by exact Hc. exact IH.
Qed.

Lemma utf8_app x y : utf8_text x -> utf8_text y -> utf8_text (x ++ y).
Proof.
  intros (cs & Hcs & ->) (ds & Hds & ->). exists (cs ++ ds). split; [now apply Forall_app|].
  now rewrite flat_map_app.
Qed.

Lemma utf8_ascii l : Forall (fun c => c < 128) l -> utf8_text l.
Proof.
  intros H. exists l. split.
  - eapply Forall_impl; [|exact H]. intros c Hc. cbv beta in Hc. left. lia.
  - induction H as [|c l Hc H IH]; [reflexivity|]. cbn [flat_map]. rewrite <- IH.
    unfold utf8_char. now replace (c <? 128) with true by lia.
Qed.

Lemma lines_utf8 old text ls : text_lines old text ls -> utf8_text text -> Forall utf8_text ls.
Proof.
  induction 1 as [|l Hne Hn Ho|l Ho Hn|l text ls Hn Hc H IH|l text ls Hn H IH]; intros Hu.
  - constructor.
  - constructor; [exact Hu|constructor].
  - constructor; [|constructor]. apply (utf8_split l [13] Hu). unfold cont. lia.
  - destruct (utf8_split l (10 :: text) Hu) as [H1 H2]; [unfold cont; lia|].
    constructor; [exact H1|]. apply IH. apply (utf8_rest [10]); [|exact H2].
    apply utf8_ascii. repeat constructor.
  - destruct (utf8_split l (13 :: 10 :: text) Hu) as [H1 H2]; [unfold cont; lia|].
    constructor; [exact H1|]. apply IH. apply (utf8_rest [13; 10]); [|exact H2].
    apply utf8_ascii. repeat constructor.
Qed.

(* bit columns *)
Lemma parse_bits_spec l :
  (Forall bit_column l -> exists bs, parse_bits l = Some bs /\ N.of_nat (length bs) = count_bits l) /\
  (~ Forall bit_column l -> parse_bits l = None).
Proof.
  induction l as [|c l [IH1 IH2]]; cbn [parse_bits].
  - split; [|intros H; exfalso; apply H; constructor]. intros _. exists []. split; reflexivity.
  - unfold count_bits in *. cbn [filter]. split.
    + intros H. apply Forall_cons_iff in H. destruct H as [Hc Hl].
      destruct (IH1 Hl) as (bs & -> & Hbs). destruct Hc as [->|[->|[->| ->]]];
        repeat match goal with
        | |- context [?a =? ?b] => let r := eval vm_compute in (a =? b) in change (a =? b) with r
        end; cbn [orb option_map].
      * eexists. split; [reflexivity|]. cbn [length]. rewrite !Nat2N.inj_succ. now f_equal.
      * eexists. split; [reflexivity|]. cbn [length]. rewrite !Nat2N.inj_succ. now f_equal.
      * eauto.
      * eauto.
    + intros H.
      destruct (N.eqb_spec c 49) as [->|H49].
      { rewrite IH2; [reflexivity|]. intros Hl. apply H. constructor; auto. right; now left. }
      destruct (N.eqb_spec c 48) as [->|H48].
      { rewrite IH2; [reflexivity|]. intros Hl. apply H. constructor; auto. now left. }
      destruct (N.eqb_spec c 124) as [->|H124].
      { cbn [orb]. apply IH2. intros Hl. apply H. constructor; auto. right; right; now left. }
      destruct (N.eqb_spec c 32) as [->|H32]; [|reflexivity].
      cbn [orb]. apply IH2. intros Hl. apply H. constructor; auto. right; right; now right.
Qed.

Lemma bit_column_dec l : Forall bit_column l \/ ~ Forall bit_column l.
Proof.
  destruct (parse_bits l) eqn:E.
  - left. induction l as [|c l IH] in l0, E |- *; [constructor|]. cbn [parse_bits] in E.
    unfold bit_column.
    destruct (N.eqb_spec c 49) as [->|H49].
    { destruct (parse_bits l) eqn:E2; [|discriminate]. constructor; [auto|eapply IH; reflexivity]. }
    destruct (N.eqb_spec c 48) as [->|H48].
    { destruct (parse_bits l) eqn:E2; [|discriminate]. constructor; [auto|eapply IH; reflexivity]. }
    destruct (N.eqb_spec c 124) as [->|H124].
    { cbn [orb] in E. constructor; [auto|eapply IH; exact E]. }
    destruct (N.eqb_spec c 32) as [->|H32]; [|discriminate].
    cbn [orb] in E. constructor; [auto|eapply IH; exact E].
  - right. intros H. destruct (proj1 (parse_bits_spec l) H) as (bs & Hbs & _). congruence.
Qed.

(* trim *)
Inductive white : list N -> Prop :=
| w1 a : white1 a = true -> white [a]
| w2 a b : white2 a b = true -> white [a; b]
| w3 a b c : white3 a b c = true -> white [a; b; c].

Lemma white_space_white c : white_space c -> white (utf8_char c).
Proof.
  assert (Hb : forall k lo, (forall i, (i < k)%nat -> white (utf8_char (lo + N.of_nat i))) ->
            forall c, lo <= c < lo + N.of_nat k -> white (utf8_char c)).
  { intros k lo H d Hd. replace d with (lo + N.of_nat (N.to_nat (d - lo))) by lia. apply H. lia. }
  assert (Hr : forall k lo, Forall (fun i => white (utf8_char (lo + N.of_nat i))) (seq 0 k) ->
            forall c, lo <= c < lo + N.of_nat k -> white (utf8_char c)).
  { intros k lo HF. apply Hb. intros i Hi. rewrite Forall_forall in HF. apply HF, in_seq. lia. }
  intros [H|[H|[H|[H|[H|[H|[H|[H|[H|[H|H]]]]]]]]]]; try subst c;
    first [ apply w1; reflexivity | apply (w2 194); reflexivity | apply (w3 226); reflexivity
          | apply (w3 225); reflexivity | apply (w3 227); reflexivity | idtac ].
  - apply (Hr 5%nat 9); [|lia]. cbn [seq]. repeat constructor; reflexivity.
  - apply (Hr 11%nat 8192); [|lia]. cbn [seq].
    repeat (apply Forall_cons; [apply (w3 226 128); reflexivity|]). constructor.
Qed.

Lemma white_white_space w : white w -> exists c, white_space c /\ utf8_char c = w.
Proof.
  intros [a H|a b H|a b c H].
  - exists a. unfold white1 in H. split; [unfold white_space; lia|].
    unfold utf8_char. now replace (a <? 128) with true by lia.
  - unfold white2 in H. assert (a = 194) by lia. subst a.
    assert (Hb : b = 133 \/ b = 160) by lia. destruct Hb as [-> | ->].
    + exists 133. split; [unfold white_space; lia|reflexivity].
    + exists 160. split; [unfold white_space; lia|reflexivity].
  - unfold white3 in H.
    assert (Hc : (a = 225 /\ b = 154 /\ c = 128) \/ (a = 226 /\ b = 129 /\ c = 159) \/
       (a = 227 /\ b = 128 /\ c = 128) \/
       (a = 226 /\ b = 128 /\ (c = 168 \/ c = 169 \/ c = 175)) \/
       (a = 226 /\ b = 128 /\ (c = 128 \/ c = 129 \/ c = 130 \/ c = 131 \/ c = 132 \/ c = 133 \/
          c = 134 \/ c = 135 \/ c = 136 \/ c = 137 \/ c = 138))) by lia.
    clear H. destruct Hc as [(-> & -> & ->)|[(-> & -> & ->)|[(-> & -> & ->)|[(-> & -> & H)|(-> & -> & H)]]]].
    + exists 5760. split; [unfold white_space; lia|reflexivity].
    + exists 8287. split; [unfold white_space; lia|reflexivity].
    + exists 12288. split; [unfold white_space; lia|reflexivity].
    + destruct H as [->|[->| ->]]; [exists 8232|exists 8233|exists 8239];
        (split; [unfold white_space; lia|reflexivity]).
    + destruct H as [->|[->|[->|[->|[->|[->|[->|[->|[->|[->| ->]]]]]]]]]];
        [exists 8192|exists 8193|exists 8194|exists 8195|exists 8196|exists 8197|exists 8198
        |exists 8199|exists 8200|exists 8201|exists 8202];
        (split; [unfold white_space; lia|reflexivity]).
Qed.

Lemma blank_nil : blank [].
Proof. exists []. now split. Qed.
Lemma blank_cons w ws : white w -> blank ws -> blank (w ++ ws).
Proof.
  intros Hw (cs & H & ->). apply white_white_space in Hw as (c & Hc & <-).
  exists (c :: cs). split; [now constructor|reflexivity].
Qed.
Lemma blank_snoc w ws : white w -> blank ws -> blank (ws ++ w).
Proof.
  intros Hw (cs & H & ->). apply white_white_space in Hw as (c & Hc & <-).
  exists (cs ++ [c]). split; [apply Forall_app; auto|]. rewrite flat_map_app. cbn [flat_map].
  now rewrite app_nil_r.
Qed.
Lemma white_space_scalar c : white_space c -> scalar_value c.
Proof. unfold white_space, scalar_value. lia. Qed.
Lemma blank_utf8 ws : blank ws -> utf8_text ws.
Proof.
  intros (cs & H & ->). exists cs. split; [|reflexivity].
  eapply Forall_impl; [|exact H]. intros c Hc. now apply white_space_scalar.
Qed.

Lemma trim_start_spec l : exists ws, l = ws ++ trim_start l /\ blank ws.
Proof.
  remember (length l) as n eqn:Hn. assert (Hle : (length l <= n)%nat) by lia. clear Hn.
  revert l Hle. induction n as [|n IH]; intros l Hle.
  - destruct l; [|cbn [length] in Hle; lia]. exists []. split; [reflexivity|apply blank_nil].
  - destruct l as [|c0 r0]; [exists []; split; [reflexivity|apply blank_nil]|].
    cbn [length] in Hle. cbn [trim_start].
    destruct (white1 c0) eqn:E1.
    { destruct (IH r0 ltac:(lia)) as (ws & E & Hw). exists ([c0] ++ ws).
      split; [cbn [app]; now rewrite <- E|]. apply blank_cons; [now constructor|exact Hw]. }
    destruct r0 as [|c1 r1]; [exists []; split; [reflexivity|apply blank_nil]|]. cbn [length] in Hle.
    destruct (white2 c0 c1) eqn:E2.
    { destruct (IH r1 ltac:(lia)) as (ws & E & Hw). exists ([c0; c1] ++ ws).
      split; [cbn [app]; now rewrite <- E|]. apply blank_cons; [now constructor|exact Hw]. }
    destruct r1 as [|c2 r2]; [exists []; split; [reflexivity|apply blank_nil]|]. cbn [length] in Hle.
    destruct (white3 c0 c1 c2) eqn:E3.
    { destruct (IH r2 ltac:(lia)) as (ws & E & Hw). exists ([c0; c1; c2] ++ ws).
      split; [cbn [app]; now rewrite <- E|]. apply blank_cons; [now constructor|exact Hw]. }
    exists []. split; [reflexivity|apply blank_nil].
Qed.

Lemma trim_back_spec l : exists ws, l = rev ws ++ trim_back l /\ blank ws.
Proof.
  remember (length l) as n eqn:Hn. assert (Hle : (length l <= n)%nat) by lia. clear Hn.
  revert l Hle. induction n as [|n IH]; intros l Hle.
  - destruct l; [|cbn [length] in Hle; lia]. exists []. split; [reflexivity|apply blank_nil].
  - destruct l as [|c0 r0]; [exists []; split; [reflexivity|apply blank_nil]|].
    cbn [length] in Hle. cbn [trim_back].
    destruct (white1 c0) eqn:E1.
    { destruct (IH r0 ltac:(lia)) as (ws & E & Hw). exists (ws ++ [c0]).
      split; [rewrite rev_app_distr; cbn [rev app]; now rewrite <- E|].
      apply blank_snoc; [now constructor|exact Hw]. }
    destruct r0 as [|c1 r1]; [exists []; split; [reflexivity|apply blank_nil]|]. cbn [length] in Hle.
    destruct (white2 c1 c0) eqn:E2.
    { destruct (IH r1 ltac:(lia)) as (ws & E & Hw). exists (ws ++ [c1; c0]).
      split; [rewrite rev_app_distr; cbn [rev app]; now rewrite <- E|].
      apply blank_snoc; [now constructor|exact Hw]. }
    destruct r1 as [|c2 r2]; [exists []; split; [reflexivity|apply blank_nil]|]. cbn [length] in Hle.
    destruct (white3 c2 c1 c0) eqn:E3.
    { destruct (IH r2 ltac:(lia)) as (ws & E & Hw). exists (ws ++ [c2; c1; c0]).
      split; [rewrite rev_app_distr; cbn [rev app]; now rewrite <- E|].
      apply blank_snoc; [now constructor|exact Hw]. }
    exists []. split; [reflexivity|apply blank_nil].
Qed.

(* A visible ASCII octet stops both loops. *)
Definition visible (c : N) : Prop := 33 <= c < 128.
Lemma visible1 c : visible c -> white1 c = false.
Proof. unfold visible, white1. lia. Qed.
Lemma visible2 c d : visible c -> white2 c d = false /\ white2 d c = false.
Proof. unfold visible, white2. lia. Qed.
Lemma visible3 c d e : visible c -> white3 c d e = false /\ white3 d e c = false.
Proof. unfold visible, white3. lia. Qed.

Lemma trim_start_visible c l : visible c -> trim_start (c :: l) = c :: l.
Proof.
  intros H. cbn [trim_start]. rewrite visible1 by exact H. destruct l as [|d l]; [reflexivity|].
  rewrite (proj1 (visible2 c d H)). destruct l as [|e l]; [reflexivity|].
  now rewrite (proj1 (visible3 c d e H)).
Qed.
Lemma trim_back_visible c l : visible c -> trim_back (c :: l) = c :: l.
Proof.
  intros H. cbn [trim_back]. rewrite visible1 by exact H. destruct l as [|d l]; [reflexivity|].
  rewrite (proj2 (visible2 c d H)). destruct l as [|e l]; [reflexivity|].
  now rewrite (proj2 (visible3 c e d H)).
Qed.

Lemma trim_start_white w l : white w -> trim_start (w ++ l) = trim_start l.
Proof.
  intros [a H|a b H|a b c H]; cbn [app trim_start].
  - now rewrite H.
  - rewrite H. replace (white1 a) with false; [reflexivity|]. unfold white1, white2 in *. lia.
  - rewrite H. replace (white1 a) with false by (unfold white1, white3 in *; lia).
    replace (white2 a b) with false by (unfold white2, white3 in *; lia). reflexivity.
Qed.
Lemma trim_back_white w l : white w -> trim_back (rev w ++ l) = trim_back l.
Proof.
  intros [a H|a b H|a b c H]; cbn [rev app trim_back].
  - now rewrite H.
  - rewrite H. replace (white1 b) with false; [reflexivity|]. unfold white1, white2 in *. lia.
  - rewrite H. replace (white1 c) with false by (unfold white1, white3 in *; lia).
    replace (white2 b c) with false by (unfold white2, white3 in *; lia). reflexivity.
Qed.

Lemma trim_start_blank ws l : blank ws -> trim_start (ws ++ l) = trim_start l.
Proof.
  intros (cs & H & ->). induction H as [|c cs Hc H IH]; [reflexivity|].
  cbn [flat_map]. rewrite <- app_assoc, trim_start_white by now apply white_space_white. exact IH.
Qed.
Lemma trim_back_blank ws l : blank ws -> trim_back (rev ws ++ l) = trim_back l.
Proof.
  intros (cs & H & ->). revert l. induction H as [|c cs Hc H IH]; intros l; [reflexivity|].
  cbn [flat_map]. rewrite rev_app_distr, <- app_assoc, IH. apply trim_back_white. now apply white_space_white.
Qed.

Lemma trim_app ws1 l ws2 : blank ws1 -> blank ws2 ->
  l <> [] -> Forall visible l -> trim (ws1 ++ l ++ ws2) = l.
Proof.
  intros H1 H2 Hne Hl. unfold trim. rewrite trim_start_blank by exact H1.
  assert (Hs : trim_start (l ++ ws2) = l ++ ws2).
  { destruct l as [|c l]; [congruence|]. inversion Hl; subst. cbn [app]. now apply trim_start_visible. }
  rewrite Hs, rev_app_distr, trim_back_blank by exact H2.
  assert (Hr : Forall visible (rev l)) by now apply Forall_rev.
  destruct (rev l) as [|c r] eqn:E.
  - apply (f_equal (@rev N)) in E. rewrite rev_involutive in E. now subst.
  - inversion Hr; subst. rewrite trim_back_visible by assumption. rewrite <- E. apply rev_involutive.
Qed.

Lemma trim_spec l : exists ws1 ws2, l = ws1 ++ trim l ++ ws2 /\ blank ws1 /\ blank ws2.
Proof.
  unfold trim.
  destruct (trim_start_spec l) as (ws1 & E1 & H1).
  destruct (trim_back_spec (rev (trim_start l))) as (ws2 & E2 & H2).
  exists ws1, ws2. split; [|split; auto].
  apply (f_equal (@rev N)) in E2. rewrite rev_involutive, rev_app_distr, rev_involutive in E2.
  now rewrite <- E2.
Qed.

(* hex digits *)
Lemma hex_digit_spec c d : hex_digit c = Some d <-> hex_char c d.
Proof.
  unfold hex_digit. split.
  - destruct ((48 <=? c) && (c <=? 57)) eqn:E1.
    { intros [= <-]. constructor. lia. }
    destruct ((97 <=? c) && (c <=? 102)) eqn:E2.
    { intros [= <-]. replace (c - 87) with (c - 97 + 10) by lia. constructor. lia. }
    destruct ((65 <=? c) && (c <=? 70)) eqn:E3; [|discriminate].
    intros [= <-]. replace (c - 55) with (c - 65 + 10) by lia. constructor. lia.
  - intros H. destruct H as [c Hc|c Hc|c Hc].
    + replace ((48 <=? c) && (c <=? 57)) with true by lia. reflexivity.
    + replace ((48 <=? c) && (c <=? 57)) with false by lia.
      replace ((97 <=? c) && (c <=? 102)) with true by lia. f_equal. lia.
    + replace ((48 <=? c) && (c <=? 57)) with false by lia.
      replace ((97 <=? c) && (c <=? 102)) with false by lia.
      replace ((65 <=? c) && (c <=? 70)) with true by lia. f_equal. lia.
Qed.

Lemma hex_char_facts c d : hex_char c d -> visible c /\ c <> 43.
Proof. intros H. unfold visible. destruct H; lia. Qed.

Definition base16_from (a : N) (ds : list N) : N := fold_left (fun a d => a * 16 + d) ds a.

Lemma base16_from_mono ds : forall a, a <= base16_from a ds.
Proof.
  induction ds as [|d ds IH]; intros a; cbn [base16_from fold_left]; [lia|].
  specialize (IH (a * 16 + d)). unfold base16_from in IH. lia.
Qed.

Lemma hex_digits_spec l : forall acc v, acc < 2 ^ 32 ->
  (hex_digits acc l = Some v <->
   exists ds, Forall2 hex_char l ds /\ v = base16_from acc ds /\ v < 2 ^ 32).
Proof.
  induction l as [|c l IH]; intros acc v Hacc; cbn [hex_digits].
  - split.
    + intros [= <-]. exists []. repeat split; auto.
    + intros (ds & H & -> & Hv). inversion H; subst. reflexivity.
  - destruct (hex_digit c) as [d|] eqn:Hd.
    + destruct (N.ltb_spec (acc * 16 + d) (2 ^ 32)) as [Hlt|Hge].
      * rewrite (IH _ v Hlt). split.
        -- intros (ds & H & E & Hv). exists (d :: ds). repeat split; auto.
           constructor; auto. now apply hex_digit_spec.
        -- intros (ds & H & E & Hv). inversion H as [|? d' ? ds' Hc Hl]; subst.
           apply hex_digit_spec in Hc. rewrite Hd in Hc. injection Hc as <-.
           exists ds'. repeat split; auto.
      * split; [discriminate|]. intros (ds & H & E & Hv).
        inversion H as [|? d' ? ds' Hc Hl]; subst.
        apply hex_digit_spec in Hc. rewrite Hd in Hc. injection Hc as <-.
        cbn [base16_from fold_left] in Hv.
        pose proof (base16_from_mono ds' (acc * 16 + d)) as Hm. unfold base16_from in Hm. lia.
    + split; [discriminate|]. intros (ds & H & _). inversion H as [|? d' ? ds' Hc Hl]; subst.
      apply hex_digit_spec in Hc. congruence.
Qed.

Lemma u32_from_hex_spec l v :
  u32_from_hex l = Some v <->
  exists sign cs ds, l = sign ++ cs /\ (sign = [] \/ sign = [43]) /\ cs <> [] /\
    Forall2 hex_char cs ds /\ v = base16 ds /\ v < 2 ^ 32.
Proof.
  assert (Hd0 : forall l, hex_digits 0 l = Some v <->
     exists ds, Forall2 hex_char l ds /\ v = base16 ds /\ v < 2 ^ 32).
  { intros l'. apply hex_digits_spec. reflexivity. }
  assert (Hplus : forall l', u32_from_hex (43 :: l') = match l' with [] => None | _ => hex_digits 0 l' end).
  { intros [|]; reflexivity. }
  assert (Hother : forall c l', c <> 43 -> u32_from_hex (c :: l') = hex_digits 0 (c :: l')).
  { intros c l' Hc. unfold u32_from_hex. destruct c as [|pc]; [reflexivity|].
    do 6 (destruct pc as [pc|pc|]; try reflexivity). exfalso. now apply Hc. }
  destruct l as [|c l].
  - split; [discriminate|]. intros (sign & cs & ds & E & _ & Hne & _).
    destruct sign; [|discriminate]. destruct cs; [congruence|discriminate].
  - destruct (N.eq_dec c 43) as [->|Hc].
    + rewrite Hplus. split.
      * intros H. destruct l as [|c2 l]; [discriminate|]. apply Hd0 in H.
        destruct H as (ds & H & E & Hv). exists [43], (c2 :: l), ds.
        repeat split; auto. discriminate.
      * intros (sign & cs & ds & E & [->| ->] & Hne & HF & Hv & Hlt).
        -- cbn [app] in E. subst cs. inversion HF as [|? d' ? ds' Hc Hl]; subst.
           apply hex_char_facts in Hc. tauto.
        -- cbn [app] in E. injection E as <-. destruct l; [congruence|]. apply Hd0. eauto.
    + rewrite Hother by exact Hc. rewrite Hd0. split.
      * intros (ds & H & E & Hv). exists [], (c :: l), ds. repeat split; auto. discriminate.
      * intros (sign & cs & ds & E & [->| ->] & Hne & HF & Hv & Hlt).
        -- cbn [app] in E. subst cs. eauto.
        -- cbn [app] in E. injection E as E _. congruence.
Qed.

Lemma hex_field_spec f v : u32_from_hex (trim f) = Some v <-> hex_field f v.
Proof.
  split.
  - intros H. apply u32_from_hex_spec in H.
    destruct H as (sign & cs & ds & E & Hs & Hne & HF & Hv & Hlt).
    destruct (trim_spec f) as (ws1 & ws2 & Ef & H1 & H2).
    exists ws1, sign, cs, ds, ws2. rewrite E, <- app_assoc in Ef. repeat split; auto.
  - intros (ws1 & sign & cs & ds & ws2 & Ef & H1 & H2 & Hs & Hne & HF & Hv & Hlt).
    rewrite Ef. replace (sign ++ cs ++ ws2) with ((sign ++ cs) ++ ws2) by (now rewrite <- app_assoc).
    rewrite trim_app; auto.
    + apply u32_from_hex_spec. exists sign, cs, ds. repeat split; auto.
    + destruct cs; [congruence|]. destruct sign; discriminate.
    + apply Forall_app. split.
      * destruct Hs as [->| ->]; constructor; [unfold visible; lia|constructor].
      * clear -HF. induction HF as [|c d cs ds Hc HF IH]; constructor; auto.
        now apply hex_char_facts in Hc.
Qed.

(* one line *)
Lemma slice_spec {A} (l s : list A) a b : (a <= b)%nat ->
  slice l a b = Some s <->
  exists pre post, l = pre ++ s ++ post /\ length pre = a /\ length s = (b - a)%nat.
Proof.
  intros Hab. unfold slice. split.
  - destruct (Nat.leb_spec b (length l)) as [Hle|]; [|discriminate]. intros [= <-].
    exists (firstn a l), (skipn (b - a) (skipn a l)). repeat split.
    + now rewrite firstn_skipn, firstn_skipn.
    + rewrite firstn_length. lia.
    + rewrite firstn_length, skipn_length. lia.
  - intros (pre & post & -> & Hp & Hs). rewrite !app_length.
    destruct (Nat.leb_spec b (length pre + (length s + length post))) as [Hle|]; [|lia].
    f_equal. rewrite skipn_app, skipn_all2, <- Hp, Nat.sub_diag by lia. cbn [skipn app].
    rewrite firstn_app. replace (b - length pre - length s)%nat with 0%nat by lia.
    rewrite firstn_O, app_nil_r, firstn_all2; [reflexivity|lia].
Qed.

Lemma slice_none {A} (l : list A) a b : slice l a b = None <-> (length l < b)%nat.
Proof.
  unfold slice. destruct (Nat.leb_spec b (length l)); split; intros; try discriminate; try lia; auto.
Qed.

Lemma count_bits_le l : count_bits l <= N.of_nat (length l).
Proof.
  unfold count_bits. induction l as [|c l IH]; cbn [filter length]; [lia|].
  destruct ((c =? 48) || (c =? 49)); cbn [length]; lia.
Qed.

Lemma str_slice_slice l a b s : str_slice l a b = Some s -> slice l a b = Some s.
Proof. unfold str_slice. destruct (_ && _); [auto|discriminate]. Qed.

Lemma char_boundary_cut x y : match y with [] => True | b :: _ => ~ cont b end ->
  char_boundary (x ++ y) (length x) = true.
Proof.
  intros H. unfold char_boundary. destruct y as [|b y].
  - rewrite app_nil_r, Nat.eqb_refl, orb_true_r. reflexivity.
  - rewrite nth_error_app2, Nat.sub_diag by lia. cbn [nth_error]. unfold cont in H.
    replace ((128 <=? b) && (b <? 192)) with false by lia. apply orb_true_r.
Qed.

Lemma hex_field_utf8 f v : hex_field f v -> utf8_text f /\ f <> [].
Proof.
  intros (ws1 & sign & cs & ds & ws2 & Ef & H1 & H2 & Hs & Hne & HF & Hv & Hlt). split.
  - rewrite Ef. apply utf8_app; [now apply blank_utf8|].
    rewrite app_assoc. apply utf8_app; [|now apply blank_utf8].
    apply utf8_ascii. apply Forall_app. split.
    + destruct Hs as [->| ->]; [constructor|]. constructor; [lia|constructor].
    + clear -HF. induction HF as [|c d cs ds Hc HF IH]; constructor; auto.
      apply hex_char_facts in Hc. unfold visible in Hc. lia.
  - intros ->. symmetry in Ef. apply app_eq_nil in Ef as [_ Ef]. apply app_eq_nil in Ef as [_ Ef].
    apply app_eq_nil in Ef as [Ef _]. now apply Hne.
Qed.

Lemma parse_line_sound line len v : parse_line line = Ok (len, v) -> rfc_line line len v.
Proof.
  unfold parse_line. destruct (slice line 12 45) as [cols|] eqn:E1; [|discriminate].
  destruct (parse_bits cols) as [msb|] eqn:E2; [|discriminate].
  destruct (str_slice line 50 59) as [hex|] eqn:E3; [|discriminate]. apply str_slice_slice in E3.
  destruct (u32_from_hex (trim hex)) as [lsb|] eqn:E4; [|discriminate].
  intros [= <- <-].
  apply slice_spec in E1; [|lia]. apply slice_spec in E3; [|lia].
  destruct E1 as (pre & post1 & EL & Hp & Hc). destruct E3 as (pre2 & post2 & EL2 & Hp2 & Hh).
  assert (Hcut : exists gap, pre2 = pre ++ cols ++ gap /\ post1 = gap ++ hex ++ post2).
  { exists (skipn 45 pre2).
    rewrite EL in EL2. rewrite app_assoc in EL2.
    assert (Hf : pre2 = (pre ++ cols) ++ skipn 45 pre2).
    { assert (Hx : firstn 45 ((pre ++ cols) ++ post1) = firstn 45 (pre2 ++ hex ++ post2)) by congruence.
      rewrite (firstn_app 45 (pre ++ cols)), (firstn_app 45 pre2) in Hx.
      rewrite (firstn_all2 (pre ++ cols)) in Hx by (rewrite app_length; lia).
      rewrite app_length in Hx.
      replace (45 - (length pre + length cols))%nat with 0%nat in Hx by lia.
      replace (45 - length pre2)%nat with 0%nat in Hx by lia.
      rewrite !firstn_O, !app_nil_r in Hx.
      rewrite Hx. now rewrite firstn_skipn. }
    split; [now rewrite app_assoc|].
    apply (app_inv_head (pre ++ cols)). rewrite EL2. rewrite Hf at 1. now rewrite <- !app_assoc. }
  destruct Hcut as (gap & Eg1 & Eg2).
  exists pre, cols, gap, hex, post2. rewrite EL, Eg2.
  assert (Hgap : length gap = 5%nat).
  { rewrite Eg1, !app_length in Hp2. lia. }
  assert (HF : Forall bit_column cols).
  { destruct (bit_column_dec cols) as [H|H]; [exact H|].
    rewrite (proj2 (parse_bits_spec cols) H) in E2. discriminate. }
  repeat split; auto.
  - destruct (proj1 (parse_bits_spec cols) HF) as (bs & Hbs & Hcount).
    rewrite E2 in Hbs. injection Hbs as <-. rewrite <- Hcount.
    unfold wrap. apply N.mod_small. rewrite Hcount.
    pose proof (count_bits_le cols). change (2 ^ 16) with 65536. lia.
  - now apply hex_field_spec.
Qed.

Lemma parse_line_complete line len v : utf8_text line -> rfc_line line len v -> parse_line line = Ok (len, v).
Proof.
  intros Hu (pre & cols & gap & hex & post & EL & Hp & Hc & Hg & Hh & HF & Hlen & Hhex).
  unfold parse_line.
  rewrite (proj2 (slice_spec line cols 12 45 ltac:(lia))).
  2: { exists pre, (gap ++ hex ++ post). auto. }
  destruct (proj1 (parse_bits_spec cols) HF) as (bs & -> & Hcount).
  assert (Hs : str_slice line 50 59 = Some hex).
  { destruct (hex_field_utf8 _ _ Hhex) as [Huh Hne].
    assert (EL2 : line = (pre ++ cols ++ gap) ++ hex ++ post) by now rewrite <- !app_assoc.
    assert (Hup : utf8_text (hex ++ post)).
    { apply (utf8_split (pre ++ cols ++ gap)); [now rewrite <- EL2|].
      pose proof (utf8_head hex Huh) as Hhd. destruct hex as [|h hex]; [congruence|exact Hhd]. }
    pose proof (utf8_rest _ _ Huh Hup) as Hpost.
    unfold str_slice.
    replace (char_boundary line 50) with true.
    2: { symmetry. rewrite EL2. replace 50%nat with (length (pre ++ cols ++ gap)) by (rewrite !app_length; lia).
         apply char_boundary_cut. now apply utf8_head. }
    replace (char_boundary line 59) with true.
    2: { symmetry. rewrite EL2, app_assoc.
         replace 59%nat with (length ((pre ++ cols ++ gap) ++ hex)) by (rewrite !app_length; lia).
         apply char_boundary_cut. now apply utf8_head. }
    cbn [andb]. apply (proj2 (slice_spec line hex 50 59 ltac:(lia))).
    exists (pre ++ cols ++ gap), post. rewrite !app_length. repeat split; [exact EL2|lia|lia]. }
  rewrite Hs. apply hex_field_spec in Hhex. rewrite Hhex.
  unfold wrap. rewrite N.mod_small; [congruence|]. rewrite Hcount.
  pose proof (count_bits_le cols). change (2 ^ 16) with 65536. lia.
Qed.

Lemma parse_line_iff line len v : utf8_text line ->
  parse_line line = Ok (len, v) <-> rfc_line line len v.
Proof. intros Hu. split; [apply parse_line_sound|now apply parse_line_complete]. Qed.

Lemma parse_line_cases line : (exists len v, parse_line line = Ok (len, v)) \/ parse_line line = Panic.
Proof.
  unfold parse_line. destruct (slice line 12 45); [|auto].
  destruct (parse_bits _); [|auto]. destruct (str_slice line 50 59); [|auto].
  destruct (u32_from_hex _); eauto.
Qed.

Lemma parse_line_panic line : utf8_text line ->
  (forall len v, ~ rfc_line line len v) <-> parse_line line = Panic.
Proof.
  intros Hu. split.
  - intros H. destruct (parse_line_cases line) as [(len & v & E)|E]; [|exact E].
    exfalso. apply (H len v). now apply parse_line_sound.
  - intros H len v Hr. apply parse_line_complete in Hr; [congruence|exact Hu].
Qed.

Lemma parse_lines_iff ls : Forall utf8_text ls -> forall cs,
  parse_lines ls = Ok cs <-> Forall2 (fun l c => rfc_line l (fst c) (snd c)) ls cs.
Proof.
  induction 1 as [|l ls Hu HF IH]; intros cs; cbn [parse_lines].
  - split; [intros [= <-]; constructor|]. intros H. inversion H. reflexivity.
  - split.
    + destruct (parse_line_cases l) as [(len & v & E)|E]; rewrite E; cbn [bind]; [|discriminate].
      destruct (parse_lines ls) as [cs'|e| |] eqn:E2; cbn [bind]; try discriminate.
      intros [= <-]. constructor; [now apply parse_line_sound|]. now apply IH.
    + intros H. inversion H as [|? [len v] ? cs' H1 H2]; subst. cbn [fst snd] in H1.
      rewrite (parse_line_complete _ _ _ Hu H1). cbn [bind]. apply IH in H2. rewrite H2. reflexivity.
Qed.

Lemma parse_lines_panic ls : Forall utf8_text ls ->
  parse_lines ls = Panic <-> Exists (fun l => forall len v, ~ rfc_line l len v) ls.
Proof.
  induction 1 as [|l ls Hu HF IH]; cbn [parse_lines].
  - split; [discriminate|]. intros H. inversion H.
  - destruct (parse_line_cases l) as [(len & v & E)|E]; rewrite E; cbn [bind].
    + split.
      * destruct (parse_lines ls) as [cs'|e| |] eqn:E2; cbn [bind]; try discriminate.
        intros _. apply Exists_cons_tl. now apply IH.
      * intros H. inversion H as [? ? H1|? ? H1]; subst.
        -- exfalso. apply (H1 len v). now apply parse_line_sound.
        -- apply IH in H1. rewrite H1. reflexivity.
    + split; [|reflexivity]. intros _. apply Exists_cons_hd. now apply parse_line_panic.
Qed.

Lemma parse_any old text ls : utf8_text text -> text_lines old text ls ->
  (forall cs, parse old text = Ok cs <-> Forall2 (fun l c => rfc_line l (fst c) (snd c)) ls cs) /\
  (parse old text = Panic <-> Exists (fun l => forall len v, ~ rfc_line l len v) ls).
Proof.
  intros Hu Hl. pose proof (lines_utf8 _ _ _ Hl Hu) as HF. unfold parse.
  rewrite (text_lines_sound _ _ _ Hl). split; [now apply parse_lines_iff|now apply parse_lines_panic].
Qed.

Lemma utf8_join ls : Forall utf8_text ls -> utf8_text (join_lines ls).
Proof.
  induction 1 as [|l ls Hl H IH]; [exists []; now split|]. cbn [join_lines].
  destruct ls; [exact Hl|]. apply utf8_app; [exact Hl|].
  apply (utf8_app [10]); [|exact IH]. apply utf8_ascii. repeat constructor.
Qed.
Lemma utf8_join_lf ls : Forall utf8_text ls -> utf8_text (flat_map (fun l => l ++ [10]) ls).
Proof.
  induction 1 as [|l ls Hl H IH]; [exists []; now split|]. cbn [flat_map].
  apply utf8_app; [|exact IH]. apply utf8_app; [exact Hl|]. apply utf8_ascii. repeat constructor.
Qed.

Lemma parse_text old ls cs : Forall utf8_text ls -> Forall plain_line ls -> last ls [0] <> [] ->
  Forall2 (fun l c => rfc_line l (fst c) (snd c)) ls cs ->
  parse old (join_lines ls) = Ok cs /\ parse old (flat_map (fun l => l ++ [10]) ls) = Ok cs.
Proof.
  intros Hu Hp Hl HF. split.
  - apply (parse_any old _ ls); [now apply utf8_join|now apply text_lines_join|exact HF].
  - apply (parse_any old _ ls); [now apply utf8_join_lf|now apply text_lines_join_lf|exact HF].
Qed.

Lemma parse_asset old : parse old asset_text = Ok ENCODE_TABLE.
Proof. destruct old; vm_compute; reflexivity. Qed.
