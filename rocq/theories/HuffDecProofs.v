(* The table driven Huffman decoder accepts exactly the bit strings described
   by HuffSpec.splits / tail_accepted, for every speed and build mode. *)
From Verif Require Import Base HuffTables HuffModel HuffSpec HuffCode.
From Coq Require Import ZifyBool ZifyNat ZifyN.
Open Scope N_scope.

(* ------------------------------------------------------------------ *)
(* The bits that lead to each row of a translation matrix. *)
Definition row_paths_step (sp : nat) (table : list (list cell))
           (paths : list (list bool)) (id : nat) : list (list bool) :=
  let p := nth id paths [] in
  fold_left
    (fun ps k =>
       match nth k (nth id table []) (None, None, 0) with
       | (Some n, None, _) => update ps (N.to_nat n) (fun _ => p ++ bits_of sp (N.of_nat k))
       | _ => ps
       end)
    (seq 0 (2 ^ sp)) paths.

Definition row_paths (sp : nat) (table : list (list cell)) : list (list bool) :=
  fold_left (row_paths_step sp table) (seq 0 (length table)) (repeat [] (length table)).

(* Boolean agreement of a matrix with the code tree. *)
Definition check_cell (sp : nat) (paths : list (list bool)) (p : list bool) (k : nat) (c : cell) : bool :=
  let bits := bits_of sp (N.of_nat k) in
  match c with
  | (_, Some a, l) =>
      (a <=? 256) && (l <? N.of_nat sp)
      && beqb (p ++ firstn (sp - N.to_nat l) bits) (code a)
  | (Some n, None, l) =>
      (l =? 0) && match nth_error paths (N.to_nat n) with
                  | Some p' => beqb p' (p ++ bits)
                  | None => false
                  end
  | (None, None, _) => false
  end.

Definition check_row (sp : nat) (paths : list (list bool)) (p : list bool) (row : list cell) : bool :=
  (length row =? 2 ^ sp)%nat
  && existsb (fun a => prefixb p (code a) && (length p <? length (code a))%nat) symbols
  && forallb (fun k => match nth_error row k with
                       | Some c => check_cell sp paths p k c
                       | None => false end) (seq 0 (2 ^ sp)).

Definition check_table (sp : nat) (table : list (list cell)) (paths : list (list bool)) : bool :=
  (length table =? length paths)%nat
  && match nth_error paths 0 with Some [] => true | _ => false end
  && forallb (fun id => match nth_error paths id, nth_error table id with
                        | Some p, Some row => check_row sp paths p row
                        | _, _ => false end) (seq 0 (length table)).

Lemma check1 : check_table 1 DECODE_TABLE1 (row_paths 1 DECODE_TABLE1) = true.
Proof. vm_compute. reflexivity. Qed.
Lemma check2 : check_table 2 DECODE_TABLE2 (row_paths 2 DECODE_TABLE2) = true.
Proof. vm_compute. reflexivity. Qed.
Lemma check3 : check_table 3 DECODE_TABLE3 (row_paths 3 DECODE_TABLE3) = true.
Proof. vm_compute. reflexivity. Qed.
Lemma check4 : check_table 4 DECODE_TABLE4 (row_paths 4 DECODE_TABLE4) = true.
Proof. vm_compute. reflexivity. Qed.
Lemma check5 : check_table 5 DECODE_TABLE5 (row_paths 5 DECODE_TABLE5) = true.
Proof. vm_compute. reflexivity. Qed.

(* The same as a proposition. *)
Definition cell_ok (sp : nat) (paths : list (list bool)) (p bits : list bool) (c : cell) : Prop :=
  match c with
  | (_, Some a, l) =>
      a <= 256 /\ l < N.of_nat sp /\ p ++ firstn (sp - N.to_nat l) bits = code a
  | (Some n, None, l) => l = 0 /\ nth_error paths (N.to_nat n) = Some (p ++ bits)
  | (None, None, _) => False
  end.

Record table_ok (sp : nat) (table : list (list cell)) (paths : list (list bool)) : Prop := {
  tok_root : nth_error paths 0 = Some [];
  tok_internal : forall id p, nth_error paths id = Some p ->
    exists a, a <= 256 /\ prefix p (code a) /\ (length p < length (code a))%nat;
  tok_cell : forall id p bits, nth_error paths id = Some p -> length bits = sp ->
    exists row c, nth_error table id = Some row /\
      nth_error row (N.to_nat (val bits)) = Some c /\ cell_ok sp paths p bits c
}.

Lemma check_cell_ok sp paths p k c :
  check_cell sp paths p k c = true -> cell_ok sp paths p (bits_of sp (N.of_nat k)) c.
Proof.
  destruct c as [[n a] l]. unfold check_cell, cell_ok.
  destruct a as [a|].
  - destruct n as [n|]; rewrite !andb_true_iff; intros [[H1 H2] H3]; apply beqb_eq in H3;
    repeat split; auto; lia.
  - destruct n as [n|]; [|discriminate]. rewrite andb_true_iff. intros [H1 H2].
    destruct (nth_error paths (N.to_nat n)) as [p'|]; [|discriminate].
    apply beqb_eq in H2. subst p'. split; auto. lia.
Qed.

Lemma check_table_ok sp table paths : check_table sp table paths = true -> table_ok sp table paths.
Proof.
  unfold check_table. rewrite !andb_true_iff. intros [[Hlen Hroot] Hrows].
  apply Nat.eqb_eq in Hlen. rewrite forallb_forall in Hrows.
  assert (Hrow : forall id p, nth_error paths id = Some p ->
            exists row, nth_error table id = Some row /\ check_row sp paths p row = true).
  { intros id p Hp. assert (Hid : (id < length table)%nat).
    { rewrite Hlen. apply nth_error_Some. congruence. }
    specialize (Hrows id ltac:(apply in_seq; lia)). rewrite Hp in Hrows.
    destruct (nth_error table id) as [row|]; [|discriminate]. eauto. }
  split.
  - destruct (nth_error paths 0) as [[|]|]; congruence.
  - intros id p Hp. destruct (Hrow id p Hp) as (row & _ & Hc).
    unfold check_row in Hc. rewrite !andb_true_iff in Hc. destruct Hc as [[_ Hc] _].
    apply existsb_exists in Hc. destruct Hc as (a & Ha & Hc). apply symbols_spec in Ha.
    apply andb_true_iff in Hc. destruct Hc as [H1 H2]. apply prefixb_spec in H1.
    apply Nat.ltb_lt in H2. eauto.
  - intros id p bits Hp Hb. destruct (Hrow id p Hp) as (row & Hr & Hc).
    unfold check_row in Hc. rewrite !andb_true_iff in Hc. destruct Hc as [[Hl _] Hc].
    rewrite forallb_forall in Hc.
    pose proof (val_lt bits) as Hv. rewrite Hb in Hv.
    assert (Hk : In (N.to_nat (val bits)) (seq 0 (2 ^ sp))).
    { apply in_seq. split; [lia|]. rewrite Nat.add_0_l.
      assert (E : N.of_nat (2 ^ sp) = 2 ^ N.of_nat sp) by (rewrite Nat2N.inj_pow; reflexivity).
      rewrite <- E in Hv. lia. }
    specialize (Hc _ Hk). destruct (nth_error row (N.to_nat (val bits))) as [c|] eqn:Hn; [|discriminate].
    apply check_cell_ok in Hc. rewrite N2Nat.id, bits_of_val_n in Hc by assumption.
    exists row, c. auto.
Qed.

(* ------------------------------------------------------------------ *)
Lemma tail_accepted_val l : tail_accepted l = existsb (N.eqb (val l)) accepted_tails.
Proof. reflexivity. Qed.

Lemma val_split q1 q2 : val (q1 ++ q2) / 2 ^ N.of_nat (length q2) = val q1.
Proof.
  rewrite val_app, N.div_add_l by (pose proof (pow2_pos (N.of_nat (length q2))); lia).
  rewrite N.div_small by apply val_lt. lia.
Qed.

Lemma val_lt_le l n : N.of_nat (length l) <= n -> val l < 2 ^ n.
Proof.
  intros H. eapply N.lt_le_trans; [apply val_lt|]. apply N.pow_le_mono_r; lia.
Qed.

Lemma EOS_le : EOS <= 256. Proof. discriminate. Qed.

Lemma short_no_code l a : (length l < 5)%nat -> a <= 256 -> ~ prefix (code a) l.
Proof. intros Hl Ha Hp. apply prefix_length in Hp. pose proof (code_length a Ha). lia. Qed.

Section Run.
Variable w : N.
Hypothesis Hw : 32 <= w.
Variable m : mode.
Variable sp : nat.
Variable paths : list (list bool).
Hypothesis Hsp : (1 <= sp <= 5)%nat.
Hypothesis Htab : table_ok sp (table_of_speed (N.of_nat sp)) paths.

Lemma lt_w x : x < 4294967296 -> x < 2 ^ w.
Proof.
  intros H. eapply N.lt_le_trans; [exact H|]. change 4294967296 with (2 ^ 32).
  apply N.pow_le_mono_r; [discriminate|exact Hw].
Qed.

(* The reader has read the bits [p] of the current code and holds [q]. *)
Record Rep (r : reader) (p q : list bool) : Prop := {
  rep_speed : rspeed r = N.of_nat sp;
  rep_id : nth_error paths (N.to_nat (rid r)) = Some p;
  rep_buf : rbuf r = val q;
  rep_buf_size : rbuf_size r = N.of_nat (length q);
  rep_tail : rtail r = val p;
  rep_tail_size : rtail_size r = N.of_nat (length p)
}.

Lemma path_length id p : nth_error paths id = Some p -> (length p <= 29)%nat.
Proof.
  intros H. destruct (tok_internal _ _ _ Htab _ _ H) as (a & Ha & _ & Hl).
  pose proof (code_length a Ha). lia.
Qed.

Lemma path_no_code id p a : nth_error paths id = Some p -> a <= 256 -> ~ prefix (code a) p.
Proof.
  intros H Ha Hp. destruct (tok_internal _ _ _ Htab _ _ H) as (b & Hb & Hpb & Hl).
  assert (a = b).
  { apply prefix_free; auto. destruct Hp as [t ->], Hpb as [u ->].
    exists (t ++ u). now rewrite app_assoc. }
  subst b. apply prefix_length in Hp. lia.
Qed.

Lemma find_target_ok r p q bits : Rep r p q -> length bits = sp ->
  exists c, find_target r (val bits) = Ok c /\ cell_ok sp paths p bits c.
Proof.
  intros HR Hb. unfold find_target. rewrite (rep_speed _ _ _ HR).
  destruct (tok_cell _ _ _ Htab _ _ bits (rep_id _ _ _ HR) Hb) as (row & c & H1 & H2 & H3).
  rewrite H1, H2. eauto.
Qed.

(* One table lookup, given what the cell says. *)
Lemma decode_next_ok r p q dst :
  Rep r p q -> (sp <= length q <= 20)%nat ->
  exists c q1 q2 r',
    find_target r (val (firstn sp q)) = Ok c /\
    cell_ok sp paths p (firstn sp q) c /\
    q = q1 ++ q2 /\ (1 <= length q1 <= sp)%nat /\
    ((exists n a l, c = (n, Some a, l) /\ N.of_nat (length q1) + l = N.of_nat sp /\ a < 256 /\ p ++ q1 = code a /\
         decode_next w m r dst = (dst ++ [a], Ok r') /\ Rep r' [] q2)
     \/ (exists n l, c = (n, Some EOS, l) /\ p ++ q1 = code EOS /\
         decode_next w m r dst = (dst, Err InvalidInput))
     \/ (exists n, c = (Some n, None, 0) /\ decode_next w m r dst = (dst, Ok r') /\ Rep r' (p ++ q1) q2)).
Proof.
  intros HR Hq.
  set (c0 := firstn sp q).
  assert (Hc0 : length c0 = sp) by (unfold c0; rewrite firstn_length; lia).
  destruct (find_target_ok r p q c0 HR Hc0) as (c & Hf & Hok).
  destruct c as [[n a] l].
  assert (Hl : l < N.of_nat sp).
  { unfold cell_ok in Hok. destruct a as [a|]; [destruct n; tauto|]. destruct n; [lia|tauto]. }
  set (u := (sp - N.to_nat l)%nat).
  set (q1 := firstn u q). set (q2 := skipn u q).
  assert (Hqq : q = q1 ++ q2) by (unfold q1, q2; now rewrite firstn_skipn).
  assert (Hq1 : length q1 = u) by (unfold q1; rewrite firstn_length; unfold u; lia).
  assert (Hq2 : (length q2 = length q - u)%nat) by (unfold q2; now rewrite skipn_length).
  assert (Hc1 : firstn (sp - N.to_nat l) c0 = q1).
  { unfold c0, q1. rewrite firstn_firstn. f_equal. unfold u. lia. }
  exists (n, a, l), q1, q2.
  pose proof (path_length _ _ (rep_id _ _ _ HR)) as Hpl.
  (* run the arithmetic *)
  assert (Hkey : val q / 2 ^ N.of_nat (length q - sp) = val c0).
  { rewrite <- (firstn_skipn sp q) at 1.
    replace (length q - sp)%nat with (length (skipn sp q)) by (now rewrite skipn_length).
    apply val_split. }
  assert (Hhi : val c0 / 2 ^ l = val q1).
  { rewrite <- Hc1.
    pose proof (val_split (firstn (sp - N.to_nat l) c0) (skipn (sp - N.to_nat l) c0)) as Hvs.
    rewrite firstn_skipn, skipn_length, Hc0 in Hvs.
    replace (N.of_nat (sp - (sp - N.to_nat l))) with l in Hvs by lia. exact Hvs. }
  assert (Hdn : decode_next w m r dst =
    match a with
    | Some a => if a <? 256 then (dst ++ [wrap 8 a], Ok (mkReader (rspeed r) 0 (val q2) (N.of_nat (length q2)) 0 0))
                else (dst, Err InvalidInput)
    | None => match n with
              | Some n => (dst, Ok (mkReader (rspeed r) n (val q2) (N.of_nat (length q2))
                                      (val (p ++ q1)) (N.of_nat (length (p ++ q1)))))
              | None => (dst, Err InvalidInput)
              end
    end).
  { unfold decode_next.
    rewrite (rep_speed _ _ _ HR), (rep_buf _ _ _ HR), (rep_buf_size _ _ _ HR),
      (rep_tail _ _ _ HR), (rep_tail_size _ _ _ HR).
    rewrite u_sub_ok by lia. cbn [bindd].
    rewrite u_shr_ok by lia. cbn [bindd].
    replace (N.of_nat (length q) - N.of_nat sp) with (N.of_nat (length q - sp)) by lia.
    rewrite Hkey, Hf. cbn [bindd].
    rewrite u_shr_ok by lia. cbn [bindd]. rewrite Hhi.
    rewrite u_add_ok by (apply lt_w; lia). cbn [bindd].
    replace (N.of_nat (length q - sp) + l) with (N.of_nat (length q2))
      by (rewrite Hq2; unfold u; lia).
    assert (Hbuf : val q = val q1 * 2 ^ N.of_nat (length q2) + val q2).
    { rewrite Hqq at 1. apply val_app. }
    rewrite u_shl_ok.
    2: lia.
    2: { pose proof (val_lt_le q w ltac:(lia)). lia. }
    cbn [bindd].
    rewrite u_sub_ok by lia. cbn [bindd].
    replace (val q - val q1 * 2 ^ N.of_nat (length q2)) with (val q2) by lia.
    rewrite u_sub_ok by lia. cbn [bindd].
    rewrite u_sub_ok by lia. cbn [bindd].
    replace (N.of_nat (length q) - (N.of_nat sp - l)) with (N.of_nat (length q2))
      by (rewrite Hq2; unfold u; lia).
    replace (N.of_nat sp - l) with (N.of_nat (length q1)) by (rewrite Hq1; unfold u; lia).
    (* the shifted tail may lose bits, but only if it is dropped *)
    unfold u_shl at 1. assert (Hlt : N.of_nat (length q1) <? w = true) by lia. rewrite Hlt. cbn [bindd].
    rewrite u_add_ok by (apply lt_w; lia). cbn [bindd].
    destruct a as [a|]; [reflexivity|]. destruct n as [n|]; [|reflexivity].
    assert (Hp1 : (length (p ++ q1) <= 29)%nat).
    { destruct Hok as [El Hpath]. replace q1 with c0; [exact (path_length _ _ Hpath)|].
      rewrite <- Hc1. symmetry. apply firstn_all2. lia. }
    rewrite N.shiftl_mul_pow2, N.mod_small.
    2: { pose proof (val_app p q1) as Hv. pose proof (val_lt_le (p ++ q1) w ltac:(lia)). lia. }
    rewrite lor_add_low by apply val_lt. rewrite <- val_app.
    rewrite app_length, Nat2N.inj_add. reflexivity. }
  rewrite Hdn. unfold cell_ok in Hok.
  destruct a as [a|].
  - assert (Hok' : a <= 256 /\ l < N.of_nat sp /\ p ++ firstn (sp - N.to_nat l) c0 = code a)
      by (destruct n; exact Hok).
    destruct Hok' as (Ha & _ & Hcode).
    assert (Hpq : p ++ q1 = code a).
    { rewrite <- Hc1. exact Hcode. }
    exists (mkReader (rspeed r) 0 (val q2) (N.of_nat (length q2)) 0 0).
    repeat split; auto; try lia.
    destruct (N.ltb_spec a 256) as [Hlt|Hge].
    + left. exists n, a, l. unfold wrap. rewrite N.mod_small by exact Hlt.
      repeat split; auto; cbn [rspeed rid rbuf rbuf_size rtail rtail_size]; auto; try lia.
      * apply (rep_speed _ _ _ HR).
      * exact (tok_root _ _ _ Htab).
    + right. left. assert (a = EOS) by (unfold EOS; lia). subst a.
      exists n, l. repeat split; auto.
  - destruct n as [n|]; [|tauto]. destruct Hok as [-> Hpath].
    assert (Hq1c : q1 = c0).
    { rewrite <- Hc1. apply firstn_all2. lia. }
    exists (mkReader (rspeed r) n (val q2) (N.of_nat (length q2))
                     (val (p ++ q1)) (N.of_nat (length (p ++ q1)))).
    repeat split; auto; try lia.
    right. right. exists n. repeat split; auto;
      cbn [rspeed rid rbuf rbuf_size rtail rtail_size]; auto.
    + apply (rep_speed _ _ _ HR).
    + rewrite Hq1c. exact Hpath.
Qed.

(* What a run of the reader establishes: either all the bits were read as
   symbols [s] leaving the reader in state (p', q'), or EOS was met. *)
Definition progress (p q : list bool) (dst : list N)
           (res : list N * outcome huff_error reader) (P : nat -> Prop) : Prop :=
  (exists s r' p' q', res = (dst ++ s, Ok r') /\ Rep r' p' q' /\ P (length q') /\
      bytes s /\ p ++ q = codes s ++ p' ++ q')
  \/ (exists s t, res = (dst ++ s, Err InvalidInput) /\ bytes s /\
      p ++ q = codes s ++ code EOS ++ t).

Lemma reader_loop_ok : forall fuel r p q dst,
  Rep r p q -> (length q <= fuel)%nat -> (length q <= 20)%nat ->
  progress p q dst (reader_loop w m fuel r dst) (fun n => (n < sp)%nat).
Proof.
  induction fuel as [|fuel IH]; intros r p q dst HR Hf Hq.
  - left. exists [], r, p, q. cbn [reader_loop].
    rewrite (rep_speed _ _ _ HR), (rep_buf_size _ _ _ HR).
    assert (Hlt : (N.of_nat (length q) <? N.of_nat sp) = true) by lia.
    rewrite Hlt, app_nil_r. repeat split; auto; try lia; try apply HR. constructor.
  - cbn [reader_loop]. rewrite (rep_speed _ _ _ HR), (rep_buf_size _ _ _ HR).
    destruct (N.ltb_spec (N.of_nat (length q)) (N.of_nat sp)) as [Hlt|Hge].
    + left. exists [], r, p, q. rewrite app_nil_r.
      repeat split; auto; try lia; try apply HR. constructor.
    + destruct (decode_next_ok r p q dst HR) as (c & q1 & q2 & r' & _ & _ & Hqq & Hq1 & Hcases).
      { lia. }
      assert (Hlen : length q = (length q1 + length q2)%nat) by (rewrite Hqq; apply app_length).
      destruct Hcases as [(n & a & l & _ & _ & Ha & Hcode & He & HR')
                         |[(n & l & _ & Hcode & He)|(n & _ & He & HR')]].
      * rewrite He. cbn [binds].
        destruct (IH r' [] q2 (dst ++ [a]) HR' ltac:(lia) ltac:(lia)) as
          [(s & r2 & p2 & q3 & E1 & E2 & E3 & E4 & E5)|(s & t & E1 & E2 & E3)].
        -- left. exists (a :: s), r2, p2, q3. rewrite E1, <- app_assoc.
           repeat split; auto; try apply E2; [constructor; auto|].
           rewrite Hqq, codes_cons, app_assoc, Hcode, <- app_assoc, <- E5. reflexivity.
        -- right. exists (a :: s), t. rewrite E1, <- app_assoc.
           repeat split; auto; [constructor; auto|].
           rewrite Hqq, codes_cons, app_assoc, Hcode, <- app_assoc, <- E3. reflexivity.
      * rewrite He. cbn [binds]. right. exists [], q2. rewrite app_nil_r.
        repeat split; auto; [constructor|].
        rewrite Hqq, app_assoc, Hcode. reflexivity.
      * rewrite He. cbn [binds].
        destruct (IH r' (p ++ q1) q2 dst HR' ltac:(lia) ltac:(lia)) as
          [(s & r2 & p2 & q3 & E1 & E2 & E3 & E4 & E5)|(s & t & E1 & E2 & E3)].
        -- left. exists s, r2, p2, q3. repeat split; auto; try apply E2.
           rewrite Hqq, app_assoc. exact E5.
        -- right. exists s, t. repeat split; auto.
           rewrite Hqq, app_assoc. exact E3.
Qed.

Lemma reader_decode_ok r p q b dst :
  Rep r p q -> (length q < sp)%nat -> b < 256 ->
  progress p (q ++ bits_of 8 b) dst (reader_decode w m r b dst) (fun n => (n < sp)%nat).
Proof.
  intros HR Hq Hb. unfold reader_decode.
  rewrite (rep_buf _ _ _ HR), (rep_buf_size _ _ _ HR).
  rewrite u_shl_ok; [|lia|].
  2: { pose proof (val_lt_le q 20 ltac:(lia)) as H. apply lt_w.
       change 4294967296 with (2 ^ 24 * 2 ^ 8). apply N.mul_lt_mono_pos_r; [reflexivity|].
       eapply N.lt_trans; [exact H|]. reflexivity. }
  cbn [bindd].
  rewrite u_add_ok by (apply lt_w; lia). cbn [bindd].
  assert (Hv : N.lor (val q * 2 ^ 8) b = val (q ++ bits_of 8 b)).
  { rewrite lor_add_low by exact Hb. rewrite val_app, bits_of_length.
    rewrite val_bits_of_small by exact Hb. reflexivity. }
  rewrite Hv.
  assert (HR1 : Rep (mkReader (rspeed r) (rid r) (val (q ++ bits_of 8 b))
                        (N.of_nat (length q) + 8) (rtail r) (rtail_size r)) p (q ++ bits_of 8 b)).
  { destruct HR. split; cbn [rspeed rid rbuf rbuf_size rtail rtail_size]; auto.
    rewrite app_length, bits_of_length. lia. }
  apply reader_loop_ok; auto; rewrite app_length, bits_of_length; lia.
Qed.

Lemma reader_run_ok : forall src r p q dst,
  Rep r p q -> (length q < sp)%nat -> bytes src ->
  progress p (q ++ bits_of_bytes src) dst (reader_run w m r src dst) (fun n => (n < sp)%nat).
Proof.
  induction src as [|b src IH]; intros r p q dst HR Hq Hs.
  - left. exists [], r, p, q. cbn [reader_run bits_of_bytes flat_map]. rewrite !app_nil_r.
    repeat split; auto; try apply HR.
  - apply bytes_cons in Hs. destruct Hs as [Hb Hs].
    cbn [reader_run]. unfold bits_of_bytes. cbn [flat_map]. fold (bits_of_bytes src).
    destruct (reader_decode_ok r p q b dst HR Hq Hb) as
      [(s & r2 & p2 & q3 & E1 & E2 & E3 & E4 & E5)|(s & t & E1 & E2 & E3)].
    + rewrite E1. cbn [binds].
      destruct (IH r2 p2 q3 (dst ++ s) E2 E3 Hs) as
        [(s' & r3 & p3 & q4 & F1 & F2 & F3 & F4 & F5)|(s' & t & F1 & F2 & F3)].
      * left. exists (s ++ s'), r3, p3, q4. rewrite F1, <- app_assoc.
        repeat split; auto; try apply F2; [apply bytes_app; auto|].
        rewrite codes_app, <- app_assoc, <- F5, !app_assoc.
        rewrite <- (app_assoc p), E5. now rewrite !app_assoc.
      * right. exists (s ++ s'), t. rewrite F1, <- app_assoc.
        repeat split; auto; [apply bytes_app; auto|].
        rewrite codes_app, <- app_assoc, <- F3, !app_assoc.
        rewrite <- (app_assoc p), E5. now rewrite !app_assoc.
    + rewrite E1. cbn [binds]. right. exists s, (t ++ bits_of_bytes src).
      repeat split; auto. rewrite !app_assoc. rewrite <- (app_assoc p), E3.
      now rewrite !app_assoc.
Qed.

(* ------------------------------------------------------------------ *)
Definition verdict (rest : list bool) : outcome huff_error unit :=
  if tail_accepted rest then Ok tt else Err InvalidInput.


(* A proper prefix of a code contains no code. *)
Lemma strict_prefix_no_code l a b :
  a <= 256 -> b <= 256 -> prefix l (code a) -> (length l < length (code a))%nat ->
  ~ prefix (code b) l.
Proof.
  intros Ha Hb Hl Hlen Hp.
  assert (b = a).
  { apply prefix_free; auto. destruct Hp as [t ->], Hl as [u ->]. exists (t ++ u).
    now rewrite app_assoc. }
  subst b. apply prefix_length in Hp. lia.
Qed.

Lemma codes_cons_splits a t s rest l :
  a < 256 -> l = code a ++ t -> splits l s rest ->
  exists s', s = a :: s' /\ splits t s' rest.
Proof.
  intros Ha -> Hs. destruct (splits_total t) as (s2 & r2 & E & B & Nr).
  destruct (splits_unique _ _ _ (a :: s2) r2 Hs) as [-> ->].
  - split; [|split; auto]. + rewrite codes_cons, E, app_assoc. reflexivity. + constructor; auto.
  - exists s2. split; auto. split; [|split]; auto.
Qed.

Lemma no_code_splits l s rest :
  (forall a, a < 256 -> ~ prefix (code a) l) -> splits l s rest -> s = [] /\ rest = l.
Proof.
  intros Hno Hs. destruct (splits_unique _ _ _ [] l Hs) as [-> ->]; auto.
  split; [reflexivity|split; [constructor|exact Hno]].
Qed.

Lemma finalize_tail r p q (dst : list N) :
  Rep r p q -> (length (p ++ q) <= 29)%nat ->
  (tail0 <-[dst] u_shl m w (rtail r) (N.of_nat (length q)) ;;
   _ <-[dst] u_add m w (rtail_size r) (N.of_nat (length q)) ;;
   (if existsb (N.eqb (N.lor tail0 (val q))) accepted_tails then (dst, Ok tt)
    else (dst, Err InvalidInput))) = (dst, verdict (p ++ q)).
Proof.
  intros HR Hq. pose proof Hq as Hpl. rewrite app_length in Hpl.
  rewrite (rep_tail _ _ _ HR), (rep_tail_size _ _ _ HR).
  rewrite u_shl_ok.
  2: lia.
  2: { pose proof (val_app p q) as Hv.
       pose proof (val_lt_le (p ++ q) w ltac:(lia)) as Hv2. lia. }
  cbn [bindd].
  rewrite u_add_ok by (apply lt_w; lia). cbn [bindd].
  rewrite lor_add_low by apply val_lt. rewrite <- val_app.
  unfold verdict. rewrite tail_accepted_val.
  destruct (existsb _ _); reflexivity.
Qed.

Lemma finalize_ok r p q dst syms rest :
  Rep r p q -> (length q < sp)%nat -> splits (p ++ q) syms rest ->
  finalize w m r dst = (dst ++ syms, verdict rest).
Proof.
  intros HR Hq Hs. unfold finalize.
  rewrite (rep_speed _ _ _ HR), (rep_buf _ _ _ HR), (rep_buf_size _ _ _ HR).
  set (n := N.of_nat (length q)). set (s := N.of_nat sp).
  destruct (Nat.eq_dec (length q) 0) as [H0|H0].
  - (* nothing pending *)
    assert (n = 0) by (unfold n; lia).
    assert (Ec : (n + s - 1) / s * s = 0).
    { rewrite H. rewrite N.div_small; [lia|]. unfold s. lia. }
    rewrite Ec, H. rewrite u_sub_ok by lia. cbn [bindd].
    change (0 - 0) with 0.
    destruct q; [|simpl in H0; lia]. rewrite app_nil_r in Hs.
    rewrite u_shl_ok by (change (val []) with 0; lia). cbn [bindd].
    rewrite u_add_ok by (cbn; lia). cbn [bindd].
    assert (Es : (s <=? 0 + 0) = false) by (unfold s; lia).
    rewrite Es. cbn [binds rbuf rbuf_size rtail rtail_size].
    rewrite u_shr_ok by lia. cbn [bindd].
    rewrite u_sub_ok by lia. cbn [bindd].
    destruct (no_code_splits p syms rest) as [-> ->]; auto.
    { intros a Ha. apply (path_no_code _ p a (rep_id _ _ _ HR)). lia. }
    rewrite app_nil_r. change ((val [] * 2 ^ 0) / 2 ^ 0) with (val []).
    change (0 + 0 - 0) with (N.of_nat (length (@nil bool))).
    pose proof (path_length _ _ (rep_id _ _ _ HR)) as Hpl.
    pose proof (finalize_tail r p [] dst HR ltac:(rewrite app_nil_r; lia)) as Hft.
    rewrite app_nil_r in Hft. exact Hft.
  - set (sh := (sp - length q)%nat).
    assert (Ec : (n + s - 1) / s * s = s).
    { replace (n + s - 1) with (1 * s + (n - 1)) by (unfold n, s; lia).
      rewrite N.div_add_l by (unfold s; lia). rewrite N.div_small by (unfold n, s; lia). lia. }
    rewrite Ec. rewrite u_sub_ok by (unfold n, s; lia). cbn [bindd].
    replace (s - n) with (N.of_nat sh) by (unfold s, n, sh; lia).
    rewrite u_shl_ok.
    2: unfold sh; lia.
    2: { pose proof (val_lt_le q 20 ltac:(lia)) as H.
         eapply N.lt_le_trans.
         - apply N.mul_lt_mono_pos_r; [apply pow2_pos|exact H].
         - rewrite <- N.pow_add_r. apply N.pow_le_mono_r; unfold sh; lia. }
    cbn [bindd].
    rewrite u_add_ok by (apply lt_w; unfold n, sh; lia). cbn [bindd].
    replace (n + N.of_nat sh) with s by (unfold s, n, sh; lia).
    assert (Es : (s <=? s) = true) by lia. rewrite Es.
    set (z := repeat false sh).
    assert (Hz : val z = 0).
    { unfold z. clear. induction sh as [|k IH]; [reflexivity|].
      cbn [repeat]. rewrite val_cons, IH. reflexivity. }
    assert (Hqz : length (q ++ z) = sp).
    { rewrite app_length. unfold z, sh. rewrite repeat_length. lia. }
    assert (Hvqz : val q * 2 ^ N.of_nat sh = val (q ++ z)).
    { rewrite val_app, Hz. unfold z. rewrite repeat_length. lia. }
    rewrite Hvqz.
    set (r1 := mkReader s (rid r) (val (q ++ z)) s (rtail r) (rtail_size r)).
    assert (HR1 : Rep r1 p (q ++ z)).
    { destruct HR. split; cbn [rspeed rid rbuf rbuf_size rtail rtail_size r1]; auto.
      rewrite Hqz. reflexivity. }
    destruct (decode_next_ok r1 p (q ++ z) dst HR1) as
      (c & q1 & q2 & r' & Hf & Hok & Hqq & Hq1 & Hcases); [lia|].
    rewrite firstn_all2 in Hf, Hok by lia.
    rewrite Hf. destruct c as [[cn ca] l].
    assert (Hnone : forall (Hno : forall a, a < 256 -> ~ prefix (code a) (p ++ q)) (Hl29 : (length (p ++ q) <= 29)%nat),
      binds (dst, Ok r1)
        (fun dst' r2 =>
         buf2 <-[dst'] u_shr m w (rbuf r2) (N.of_nat sh);;
         buf_size2 <-[dst'] u_sub m w (rbuf_size r2) (N.of_nat sh);;
         tail0 <-[dst'] u_shl m w (rtail r2) buf_size2;;
         _ <-[dst'] u_add m w (rtail_size r2) buf_size2;;
         (if existsb (N.eqb (N.lor tail0 buf2)) accepted_tails
          then (dst', Ok tt) else (dst', Err InvalidInput)))
      = (dst ++ syms, verdict rest)).
    { intros Hno Hl29. cbn [binds rbuf rbuf_size rtail rtail_size r1].
      rewrite u_shr_ok by (unfold sh; lia). cbn [bindd].
      rewrite u_sub_ok by (unfold s, sh; lia). cbn [bindd].
      assert (Ev : val (q ++ z) / 2 ^ N.of_nat sh = val q).
      { replace sh with (length z) by (unfold z; apply repeat_length). apply val_split. }
      rewrite Ev. replace (s - N.of_nat sh) with (N.of_nat (length q)) by (unfold s, sh; lia).
      destruct (no_code_splits (p ++ q) syms rest Hno Hs) as [-> ->].
      rewrite app_nil_r. apply finalize_tail; auto. }
    destruct (N.leb_spec (N.of_nat sh) l) as [Hle|Hgt].
    + (* the symbol ends within the pending bits *)
      assert (Hl1 : (length q1 <= length q)%nat /\ exists a, ca = Some a /\ p ++ q1 = code a /\ a <= 256).
      { destruct Hcases as [(n' & a & l' & Ecc & Hsum & Ha & Hcode & _)
                         |[(n' & l' & Ecc & Hcode & _)|(n' & Ecc & _)]].
        - injection Ecc as -> -> ->. split; [unfold sh in Hle; lia|]. exists a. repeat split; auto. lia.
        - injection Ecc as -> -> ->.
          assert (Hok' : EOS <= 256 /\ l' < N.of_nat sp /\ p ++ firstn (sp - N.to_nat l') (q ++ z) = code EOS)
            by (destruct n'; exact Hok).
          destruct Hok' as (_ & Hlt & Hc).
          assert (Hx : length (p ++ q1) = length (p ++ firstn (sp - N.to_nat l') (q ++ z))) by congruence.
          rewrite !app_length, firstn_length in Hx.
          split; [unfold sh in Hle; lia|]. exists EOS. repeat split; auto. apply EOS_le.
        - injection Ecc as -> -> ->. unfold sh in Hle. lia. }
      destruct Hl1 as (Hl1 & a0 & -> & Hcode0 & Ha0).
      assert (Hq12 : exists q2', q = q1 ++ q2' /\ q2 = q2' ++ z).
      { exists (skipn (length q1) q).
        assert (E1 : firstn (length q1) (q ++ z) = q1).
        { rewrite Hqq, firstn_app, Nat.sub_diag, firstn_all, firstn_O, app_nil_r. reflexivity. }
        rewrite firstn_app in E1. replace (length q1 - length q)%nat with 0%nat in E1 by lia.
        rewrite firstn_O, app_nil_r in E1.
        assert (E2 : q = q1 ++ skipn (length q1) q).
        { rewrite <- (firstn_skipn (length q1) q) at 1. now rewrite E1. }
        split; [exact E2|]. rewrite E2 in Hqq at 1. rewrite <- app_assoc in Hqq.
        apply app_inv_head in Hqq. now symmetry. }
      destruct Hq12 as (q2' & Eq & Eq2).
      destruct Hcases as [(n' & a & l' & Ecc & Hsum & Ha & Hcode & He & HR')
                         |[(n' & l' & Ecc & Hcode & He)|(n' & Ecc & _)]].
      * injection Ecc as -> -> ->. rewrite He. cbn [binds].
        rewrite (rep_buf _ _ _ HR'), (rep_buf_size _ _ _ HR').
        rewrite u_shr_ok by (unfold sh; lia). cbn [bindd].
        assert (Hlq2 : length q2 = (length q2' + sh)%nat).
        { rewrite Eq2, app_length. unfold z. now rewrite repeat_length. }
        rewrite u_sub_ok by lia. cbn [bindd].
        assert (Ev : val q2 / 2 ^ N.of_nat sh = val q2').
        { rewrite Eq2. replace sh with (length z) by (unfold z; apply repeat_length). apply val_split. }
        rewrite Ev. replace (N.of_nat (length q2) - N.of_nat sh) with (N.of_nat (length q2')) by lia.
        assert (Hlq : length q = (length q1 + length q2')%nat) by (rewrite Eq; apply app_length).
        assert (HR'' : Rep (mkReader (rspeed r') (rid r') (val q2') (N.of_nat (length q2'))
                               (rtail r') (rtail_size r')) [] q2').
        { destruct HR'. split; cbn [rspeed rid rbuf rbuf_size rtail rtail_size]; auto. }
        pose proof (finalize_tail _ [] q2' (dst ++ [a]) HR'' ltac:(cbn [app]; lia)) as Hft.
        cbn [rtail rtail_size] in Hft. rewrite Hft. clear Hft.
        destruct (codes_cons_splits a q2' syms rest (p ++ q)) as (s' & -> & Hs'); auto.
        { rewrite Eq, app_assoc, Hcode. reflexivity. }
        destruct (no_code_splits q2' s' rest) as [-> ->]; auto.
        intros b Hb. apply short_no_code; lia.
      * injection Ecc as -> -> ->. rewrite He. cbn [binds].
        destruct (no_code_splits (p ++ q) syms rest) as [-> ->]; auto.
        { intros b Hb Hp. assert (b = EOS).
          { apply (prefix_of_same b EOS (p ++ q) ltac:(lia) EOS_le Hp).
            exists q2'. rewrite Eq, app_assoc, Hcode. reflexivity. }
          subst b. discriminate Hb. }
        rewrite app_nil_r. f_equal. unfold verdict.
        assert (Hbig : tail_accepted (p ++ q) = false).
        { unfold tail_accepted. rewrite Eq, app_assoc, Hcode.
          rewrite val_app. rewrite code_eos.
          assert (Hv : 1073741823 <= val (repeat true 30) * 2 ^ N.of_nat (length q2')).
          { change (val (repeat true 30)) with 1073741823.
            pose proof (pow2_pos (N.of_nat (length q2'))). nia. }
          cbn [existsb]. lia. }
        now rewrite Hbig.
      * discriminate Ecc.
    + (* no symbol ends within the pending bits *)
      destruct ca as [a|].
      * assert (Hok' : a <= 256 /\ l < N.of_nat sp /\ p ++ firstn (sp - N.to_nat l) (q ++ z) = code a)
          by (destruct cn; exact Hok).
        destruct Hok' as (Ha & Hl & Hcode).
        assert (Hlen : (length (p ++ q) < length (code a))%nat).
        { rewrite <- Hcode, !app_length, firstn_length, Hqz. unfold sh in Hgt. lia. }
        apply Hnone; [|pose proof (code_length a Ha); lia].
        intros b Hb. apply (strict_prefix_no_code _ a b Ha ltac:(lia)); [|exact Hlen].
        rewrite <- Hcode. exists (firstn (sp - N.to_nat l - length q) z).
        rewrite firstn_app, firstn_all2 by (unfold sh in Hgt; lia).
        now rewrite app_assoc.
      * destruct cn as [cn|]; [|destruct Hok].
        destruct Hok as [_ Hpath]. apply Hnone.
        -- intros b Hb Hp.
           apply (path_no_code _ _ b Hpath ltac:(lia)).
           rewrite app_assoc. now apply prefix_app_r.
        -- pose proof (path_length _ _ Hpath) as Hpl. rewrite app_assoc, app_length in Hpl. lia.
Qed.

Lemma decode_sp_ok src dst syms rest :
  bytes src -> splits (bits_of_bytes src) syms rest ->
  binds (reader_run w m (reader_new (N.of_nat sp)) src dst) (fun dst' r => finalize w m r dst')
  = (dst ++ syms, verdict rest).
Proof.
  intros Hb Hs.
  assert (HR : Rep (reader_new (N.of_nat sp)) [] []).
  { split; cbn [reader_new rspeed rid rbuf rbuf_size rtail rtail_size]; auto.
    exact (tok_root _ _ _ Htab). }
  destruct (reader_run_ok src _ [] [] dst HR ltac:(simpl; lia) Hb) as
    [(s & r2 & p2 & q3 & E1 & E2 & E3 & E4 & E5)|(s & t & E1 & E2 & E3)]; rewrite E1; cbn [binds app] in *.
  - destruct (splits_total (p2 ++ q3)) as (s2 & rest2 & F1 & F2 & F3).
    destruct (splits_unique _ _ _ (s ++ s2) rest2 Hs) as [-> ->].
    { split; [|split; auto; apply bytes_app; auto].
      rewrite E5, F1, codes_app, !app_assoc. reflexivity. }
    rewrite (finalize_ok r2 p2 q3 (dst ++ s) s2 rest2); auto.
    + now rewrite app_assoc.
    + split; auto.
  - assert (Hno : forall a, a < 256 -> ~ prefix (code a) (code EOS ++ t)).
    { intros a Ha Hp. assert (a = EOS).
      { apply (prefix_of_same a EOS (code EOS ++ t) ltac:(lia) EOS_le Hp). now exists t. }
      subst a. discriminate Ha. }
    destruct (splits_unique _ _ _ s (code EOS ++ t) Hs) as [-> ->].
    { split; auto. }
    f_equal. unfold verdict.
    assert (Hbig : tail_accepted (code EOS ++ t) = false).
    { unfold tail_accepted. rewrite val_app, code_eos.
      assert (Hv : 1073741823 <= val (repeat true 30) * 2 ^ N.of_nat (length t)).
      { change (val (repeat true 30)) with 1073741823.
        pose proof (pow2_pos (N.of_nat (length t))). nia. }
      cbn [existsb]. lia. }
    now rewrite Hbig.
Qed.

End Run.

(* On every target whose usize has 32 bits or more. *)
Theorem decode_on_ok w m sp src dst syms rest : 32 <= w ->
  bytes src -> splits (bits_of_bytes src) syms rest ->
  decode_on w m sp src dst = (dst ++ syms, verdict rest).
Proof.
  intros Hw Hb Hs. unfold decode_on. destruct sp; cbn [speed_bits].
  - exact (decode_sp_ok w Hw m 1 _ ltac:(lia) (check_table_ok _ _ _ check1) src dst syms rest Hb Hs).
  - exact (decode_sp_ok w Hw m 2 _ ltac:(lia) (check_table_ok _ _ _ check2) src dst syms rest Hb Hs).
  - exact (decode_sp_ok w Hw m 3 _ ltac:(lia) (check_table_ok _ _ _ check3) src dst syms rest Hb Hs).
  - exact (decode_sp_ok w Hw m 4 _ ltac:(lia) (check_table_ok _ _ _ check4) src dst syms rest Hb Hs).
  - exact (decode_sp_ok w Hw m 5 _ ltac:(lia) (check_table_ok _ _ _ check5) src dst syms rest Hb Hs).
Qed.

Theorem decode_ok m sp src dst syms rest :
  bytes src -> splits (bits_of_bytes src) syms rest ->
  decode m sp src dst = (dst ++ syms, verdict rest).
Proof. apply decode_on_ok. discriminate. Qed.
