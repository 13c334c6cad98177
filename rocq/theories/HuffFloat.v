(* The floating-point expressions of the huffman crate (C91).

   HuffModel.v writes `(x as f32 / s as f32).ceil() as usize` and the same with f64 as an
   integer ceiling.  Here the three functions that contain such an expression are modelled
   a second time with IEEE 754 arithmetic, executed by Coq's own specification of it
   (Coq.Floats.SpecFloat, no axioms), and shown to be the same functions. *)
From Coq Require Import ZArith Floats.SpecFloat.
From Verif Require Import Base HuffTables HuffModel HuffSpec HuffCode HuffDecProofs.
Open Scope list_scope.
Open Scope N_scope.

(* ------------------------------------------------------------------ *)
(* IEEE 754. *)

(* `x as f32` (huffman/src/flattener/mod.rs:152, 211) / `x as f64` (huffman/src/decoder/reader.rs:68) of an unsigned integer: the nearest float, ties to even;
   (prec, emax) is (24, 128) for f32 and (53, 1024) for f64. *)
Definition float_of (prec emax : Z) (x : N) : spec_float := binary_normalize prec emax (Z.of_N x) 0 false.

(* `.ceil() as usize` (huffman/src/flattener/mod.rs:152, 211; decoder/reader.rs:68): the least integer that is not below the float; the cast saturates
   and takes NaN to 0. *)
Definition ceil_as_usize (w : N) (f : spec_float) : N :=
  match f with
  | S754_zero _ | S754_nan => 0
  | S754_infinity neg => if neg then 0 else 2 ^ w - 1
  | S754_finite true _ _ => 0
  | S754_finite false mant e =>
      N.min (2 ^ w - 1)
        (if (0 <=? e)%Z then Npos mant * 2 ^ Z.to_N e
         else (Npos mant + 2 ^ Z.to_N (- e) - 1) / 2 ^ Z.to_N (- e))
  end.

(* `(a as f32 / s as f32).ceil() as usize`: huffman/src/flattener/mod.rs:152, 211 *)
Definition ceil_f32 (w a s : N) : N := ceil_as_usize w (SFdiv 24 128 (float_of 24 128 a) (float_of 24 128 s)).
(* with f64: huffman/src/decoder/reader.rs:68 *)
Definition ceil_f64 (w a s : N) : N := ceil_as_usize w (SFdiv 53 1024 (float_of 53 1024 a) (float_of 53 1024 s)).

(* ------------------------------------------------------------------ *)
(* Multiplication with overflow check (`* speed`, huffman/src/flattener/mod.rs:152, huffman/src/decoder/reader.rs:68). *)
Definition u_mul {E} (m : mode) (w a b : N) : outcome E N :=
  if a * b <? 2 ^ w then Ok (a * b) else overflow m ((a * b) mod 2 ^ w).

(* huffman/src/decoder/reader.rs:67-98, finalize *)
Definition finalize_ieee (w : N) (m : mode) (r : reader) (dst : list N)
  : list N * outcome huff_error unit :=
  let s := rspeed r in
  aligned <-[dst] u_mul m w (ceil_f64 w (rbuf_size r) s) s ;;
  shift_len <-[dst] u_sub m w aligned (rbuf_size r) ;;
  buf <-[dst] u_shl m w (rbuf r) shift_len ;;
  buf_size <-[dst] u_add m w (rbuf_size r) shift_len ;;
  let r1 := mkReader s (rid r) buf buf_size (rtail r) (rtail_size r) in
  binds
    (if s <=? buf_size then
       match find_target r1 buf with
       | Ok (_, _, leftover) =>
           if shift_len <=? leftover then decode_next w m r1 dst else (dst, Ok r1)
       | _ => (dst, Ok r1)
       end
     else (dst, Ok r1))
    (fun dst' r2 =>
       buf2 <-[dst'] u_shr m w (rbuf r2) shift_len ;;
       buf_size2 <-[dst'] u_sub m w (rbuf_size r2) shift_len ;;
       tail0 <-[dst'] u_shl m w (rtail r2) buf_size2 ;;
       _ <-[dst'] u_add m w (rtail_size r2) buf_size2 ;;
       let tail := N.lor tail0 buf2 in
       if existsb (N.eqb tail) accepted_tails then (dst', Ok tt)
       else (dst', Err InvalidInput)).

(* huffman/src/decoder/mod.rs:101-114, decode *)
Definition decode_ieee (w : N) (m : mode) (s : speed) (src dst : list N)
  : list N * outcome huff_error unit :=
  binds (reader_run w m (reader_new (speed_bits s)) src dst)
        (fun dst' r => finalize_ieee w m r dst').

(* huffman/src/flattener/mod.rs:209-234, generate_coding_paths *)
Definition generate_coding_paths_ieee (m : mode) (coding : N * N) (sp : N)
  : outcome huff_error (list (list N)) :=
  let chunks_len := ceil_f32 64 (fst coding) sp in
  let chunk_max := 2 ^ sp - 1 in
  aligned <- u_mul m 64 chunks_len sp ;;
  leftover <- u_sub m 64 aligned (fst coding) ;;
  bits <- u_shl m 32 (snd coding) leftover ;;
  chunks <- coding_chunks m bits chunks_len sp chunk_max (seq 0 (N.to_nat chunks_len)) ;;
  match rev chunks with
  | [] => Panic
  | chunk_last :: rchunks =>
      Ok (map (fun i => rev rchunks ++ [chunk_last + N.of_nat i])
              (seq 0 (N.to_nat (2 ^ leftover))))
  end.

(* huffman/src/flattener/mod.rs:151-186, the loop over the codings *)
Fixpoint flatten_codings_ieee (m : mode) (blank : list cell) (table : list (list cell))
         (sp : N) (ascii : N) (codings : list (N * N))
  : outcome huff_error (list (list cell)) :=
  match codings with
  | [] => Ok table
  | coding :: codings' =>
      aligned <- u_mul m 64 (ceil_f32 64 (fst coding) sp) sp ;;
      leftover <- u_sub m 64 aligned (fst coding) ;;
      paths <- generate_coding_paths_ieee m coding sp ;;
      table' <- flatten_paths blank table 0 paths true ascii leftover ;;
      flatten_codings_ieee m blank table' sp (ascii + 1) codings'
  end.

(* huffman/src/flattener/mod.rs:141-188, flatten *)
Definition flatten_ieee (m : mode) (codings : list (N * N)) (s : speed)
  : outcome huff_error (list (list cell)) :=
  let sp := speed_bits s in
  flatten_codings_ieee m (blank_transition sp) [blank_transition sp] sp 0 codings.

(* ------------------------------------------------------------------ *)
(* Every u8 and every speed. *)
Definition octet_values : list N := map N.of_nat (seq 0 256).
Lemma octet_in x : x < 256 -> In x octet_values.
Proof.
  intros H. apply in_map_iff. exists (N.to_nat x). split; [lia|]. apply in_seq. lia.
Qed.
Lemma speed_known s : In s known_speeds.
Proof. destruct s; cbn; auto 8. Qed.

(* The quotient, with and without floats; [big] stands for any large usize bound. *)
Definition least (f : spec_float) : N :=
  match f with
  | S754_finite false mant e =>
      if (0 <=? e)%Z then Npos mant * 2 ^ Z.to_N e
      else (Npos mant + 2 ^ Z.to_N (- e) - 1) / 2 ^ Z.to_N (- e)
  | _ => 0
  end.
Definition plain (f : spec_float) : bool := match f with S754_zero _ | S754_finite false _ _ => true | _ => false end.
Lemma ceil_least w f : plain f = true -> ceil_as_usize w f = N.min (2 ^ w - 1) (least f).
Proof. destruct f as [| | |[] mant e]; try discriminate; intros _; cbn [ceil_as_usize least]; [now rewrite N.min_0_r|reflexivity]. Qed.

Definition exact_at (prec emax : Z) (a s : N) : bool :=
  let f := SFdiv prec emax (float_of prec emax a) (float_of prec emax s) in
  plain f && (least f =? ceil_div a s).
Lemma exact_f32 : forallb (fun s => forallb (fun a => exact_at 24 128 a (speed_bits s)) octet_values) known_speeds = true.
Proof. vm_compute. reflexivity. Qed.
Lemma exact_f64 : forallb (fun s => forallb (fun a => exact_at 53 1024 a (speed_bits s)) octet_values) known_speeds = true.
Proof. vm_compute. reflexivity. Qed.

Lemma ceil_div_le a s : a < 256 -> 1 <= s -> ceil_div a s <= 255.
Proof.
  intros Ha Hs. unfold ceil_div. destruct (N.eq_dec a 0) as [->|].
  - rewrite N.div_small by lia. lia.
  - assert (H : (a + s - 1) / s < 256); [|lia]. apply N.div_lt_upper_bound; [lia|]. nia.
Qed.
Lemma speed_pos s : 1 <= speed_bits s <= 5.
Proof. destruct s; cbn; lia. Qed.

Lemma usize_big w : 32 <= w -> 4294967296 <= 2 ^ w.
Proof. intros H. change 4294967296 with (2 ^ 32). apply N.pow_le_mono_r; [discriminate|exact H]. Qed.

Lemma ceil_exact prec emax w a s : 32 <= w -> a < 256 -> exact_at prec emax a (speed_bits s) = true ->
  ceil_as_usize w (SFdiv prec emax (float_of prec emax a) (float_of prec emax (speed_bits s))) = ceil_div a (speed_bits s).
Proof.
  intros Hw Ha H. unfold exact_at in H. apply andb_true_iff in H as [Hp He]. apply N.eqb_eq in He.
  rewrite ceil_least by exact Hp. rewrite He. pose proof (usize_big w Hw). pose proof (ceil_div_le a (speed_bits s) Ha (proj1 (speed_pos s))). lia.
Qed.
Lemma ceil_f32_exact w a s : 32 <= w -> a < 256 -> ceil_f32 w a (speed_bits s) = ceil_div a (speed_bits s).
Proof.
  intros Hw Ha. apply ceil_exact; auto. pose proof exact_f32 as H. rewrite forallb_forall in H.
  specialize (H s (speed_known s)). rewrite forallb_forall in H. apply H. now apply octet_in.
Qed.
Lemma ceil_f64_exact w a s : 32 <= w -> a < 256 -> ceil_f64 w a (speed_bits s) = ceil_div a (speed_bits s).
Proof.
  intros Hw Ha. apply ceil_exact; auto. pose proof exact_f64 as H. rewrite forallb_forall in H.
  specialize (H s (speed_known s)). rewrite forallb_forall in H. apply H. now apply octet_in.
Qed.

Lemma u_mul_small {E} m w a b : 32 <= w -> a <= 255 -> b <= 5 -> u_mul m w a b = Ok (a * b) :> outcome E N.
Proof.
  intros Hw Ha Hb. unfold u_mul. pose proof (usize_big w Hw). destruct (N.ltb_spec (a * b) (2 ^ w)); [reflexivity|nia].
Qed.

(* The flattener. *)
Lemma paths_ieee m coding s : fst coding < 256 ->
  generate_coding_paths_ieee m coding (speed_bits s) = generate_coding_paths m coding (speed_bits s).
Proof.
  intros Ha. unfold generate_coding_paths_ieee, generate_coding_paths. rewrite ceil_f32_exact by (lia || exact Ha).
  rewrite u_mul_small; [reflexivity|lia|apply ceil_div_le; [exact Ha|apply speed_pos]|apply speed_pos].
Qed.
Lemma codings_ieee m blank s codings : Forall (fun c => fst c < 256) codings -> forall table ascii,
  flatten_codings_ieee m blank table (speed_bits s) ascii codings = flatten_codings m blank table (speed_bits s) ascii codings.
Proof.
  induction 1 as [|c cs Hc _ IH]; intros table ascii; [reflexivity|]. cbn [flatten_codings_ieee flatten_codings].
  rewrite paths_ieee by exact Hc. rewrite ceil_f32_exact by (lia || exact Hc).
  rewrite u_mul_small; [|lia|apply ceil_div_le; [exact Hc|apply speed_pos]|apply speed_pos]. cbn [bind].
  destruct (u_sub m 64 _ _) as [lf|e| |]; [|reflexivity..]. cbn [bind].
  destruct (generate_coding_paths m c _) as [ps|e| |]; [|reflexivity..]. cbn [bind].
  destruct (flatten_paths _ _ _ _ _ _ _) as [t|e| |]; [|reflexivity..]. apply IH.
Qed.
Theorem flatten_same m codings s : Forall (fun c => fst c < 256) codings -> flatten_ieee m codings s = flatten m codings s.
Proof. intros H. unfold flatten_ieee, flatten. now apply codings_ieee. Qed.

(* The decoder. *)
Lemma finalize_same w m r s dst : 32 <= w -> rspeed r = speed_bits s -> rbuf_size r < 256 ->
  finalize_ieee w m r dst = finalize w m r dst.
Proof.
  intros Hw Hs Hb. unfold finalize_ieee, finalize. rewrite Hs, ceil_f64_exact by assumption.
  rewrite u_mul_small; [reflexivity|exact Hw|apply ceil_div_le; [exact Hb|apply speed_pos]|apply speed_pos].
Qed.

Lemma decode_same_sp w m s sp paths src dst : 32 <= w -> (1 <= sp <= 5)%nat -> speed_bits s = N.of_nat sp ->
  table_ok sp (table_of_speed (N.of_nat sp)) paths -> bytes src ->
  decode_ieee w m s src dst = decode_on w m s src dst.
Proof.
  intros Hw Hsp Es Htab Hb. unfold decode_ieee, decode_on. rewrite Es.
  assert (HR : Rep sp paths (reader_new (N.of_nat sp)) [] []).
  { split; cbn [reader_new rspeed rid rbuf rbuf_size rtail rtail_size]; auto.
    exact (tok_root _ _ _ Htab). }
  destruct (reader_run_ok w Hw m sp paths Hsp Htab src _ [] [] dst HR ltac:(simpl; lia) Hb) as
    [(x & r2 & p2 & q3 & E1 & E2 & E3 & _)|(x & t & E1 & _)]; rewrite E1; cbn [binds]; [|reflexivity].
  apply finalize_same with s; [exact Hw|rewrite Es; apply (rep_speed _ _ _ _ _ E2)|].
  rewrite (rep_buf_size _ _ _ _ _ E2). lia.
Qed.
Theorem decode_same w m s src dst : 32 <= w -> bytes src -> decode_ieee w m s src dst = decode_on w m s src dst.
Proof.
  intros Hw Hb. destruct s.
  - exact (decode_same_sp w m OneBit 1 _ src dst Hw ltac:(lia) eq_refl (check_table_ok _ _ _ check1) Hb).
  - exact (decode_same_sp w m TwoBits 2 _ src dst Hw ltac:(lia) eq_refl (check_table_ok _ _ _ check2) Hb).
  - exact (decode_same_sp w m ThreeBits 3 _ src dst Hw ltac:(lia) eq_refl (check_table_ok _ _ _ check3) Hb).
  - exact (decode_same_sp w m FourBits 4 _ src dst Hw ltac:(lia) eq_refl (check_table_ok _ _ _ check4) Hb).
  - exact (decode_same_sp w m FiveBits 5 _ src dst Hw ltac:(lia) eq_refl (check_table_ok _ _ _ check5) Hb).
Qed.
