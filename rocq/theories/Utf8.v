(* Specification vocabulary shared by the crates: UTF-8 text. *)
From Verif Require Import Base.
Open Scope N_scope.

(* Unicode scalar values and UTF-8 (RFC 3629). *)
Definition scalar_value (c : N) : Prop := c < 55296 \/ 57344 <= c < 1114112.
Definition utf8_char (c : N) : list N :=
  if c <? 128 then [c]
  else if c <? 2048 then [192 + c / 64; 128 + c mod 64]
  else if c <? 65536 then [224 + c / 4096; 128 + c / 64 mod 64; 128 + c mod 64]
  else [240 + c / 262144; 128 + c / 4096 mod 64; 128 + c / 64 mod 64; 128 + c mod 64].
Definition utf8_text (bs : list N) : Prop :=
  exists cs, Forall scalar_value cs /\ bs = flat_map utf8_char cs.

(* Unicode property White_Space (PropList.txt). *)
Definition white_space (c : N) : Prop :=
  9 <= c <= 13 \/ c = 32 \/ c = 133 \/ c = 160 \/ c = 5760 \/ 8192 <= c <= 8202 \/
  c = 8232 \/ c = 8233 \/ c = 8239 \/ c = 8287 \/ c = 12288.
Definition blank (bs : list N) : Prop :=
  exists cs, Forall white_space cs /\ bs = flat_map utf8_char cs.
