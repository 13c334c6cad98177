(* Property theorems C117: which octets are a protobuf message, and in how many ways.  The
   vocabulary is at the head of ProtosLang.v (message, replaces) and in ProtosApi.v
   (field_read, key_read, reads: the wire format, with any padding of the varints). *)
From Verif Require Import Base Leb ProtosModel ProtosSpec ProtosApi ProtosNum ProtosDec ProtosLang.
Open Scope list_scope.
Open Scope N_scope.

(* C117, the language: octets decode to fields, with nothing left over or pending, exactly if
   they are the fields' records in order. *)
Theorem C117_message_iff : forall m bs fs, bytes bs ->
  (message m bs fs <-> exists parts, Forall2 (field_read m) fs parts /\ bs = concat parts).
Proof. exact message_iff. Qed.
Print Assumptions C117_message_iff.

(* C117, one way only: of two texts that begin with a field record each, equal texts have the
   same field, the same record and the same rest, whichever builds read them. *)
Theorem C117_field_apart : forall m m' f g a b x y,
  field_read m f a -> field_read m' g b -> a ++ x = b ++ y -> f = g /\ a = b /\ x = y.
Proof. exact field_apart. Qed.
Print Assumptions C117_field_apart.

(* C117, taking a message off the front: what is left of a message is a message, with the
   fields that are left. *)
Theorem C117_message_split : forall m a b fs gs, bytes (a ++ b) -> message m a fs -> message m (a ++ b) gs ->
  exists hs, gs = fs ++ hs /\ message m b hs.
Proof. exact message_split. Qed.
Print Assumptions C117_message_split.

(* C117, where a field is: every field of a message has a record of its own, between a
   message with the fields before it and a message with those after it. *)
Theorem C117_message_at : forall m bs fs f gs, bytes bs -> message m bs (fs ++ f :: gs) ->
  exists a x b, bs = a ++ x ++ b /\ message m a fs /\ field_read m f x /\ message m b gs.
Proof. exact message_at. Qed.
Print Assumptions C117_message_at.

(* C117, overwriting in place: a payload may be replaced where it stands, by any octets of
   the same number or, for a varint, by any varint; the message then has that payload in that
   field and is otherwise the same. *)
Theorem C117_message_patch : forall m bs fs tag t p gs, bytes bs -> message m bs (fs ++ (tag, t, p) :: gs) ->
  exists a b, bs = a ++ p ++ b /\
    forall q, bytes q -> replaces t p q -> message m (a ++ q ++ b) (fs ++ (tag, t, q) :: gs).
Proof. exact message_patch. Qed.
Print Assumptions C117_message_patch.

(* A message of five fields of all four wire types, with a padded key, cut after the second
   field, and with its third and first payloads overwritten. *)
Definition lang_head : list N := [136; 0; 150; 1; 16; 5].
Definition lang_tail : list N := [26; 3; 97; 98; 99; 37; 1; 2; 3; 4; 41; 1; 2; 3; 4; 5; 6; 7; 8].
Example C117_message_case : forall m,
  bytes (lang_head ++ lang_tail) /\
  message m lang_head [(1, Varint, [150; 1]); (2, Varint, [5])] /\
  message m lang_tail [(3, LengthDelimited, [97; 98; 99]); (4, Bit32, [1; 2; 3; 4]); (5, Bit64, [1; 2; 3; 4; 5; 6; 7; 8])] /\
  message m (lang_head ++ lang_tail)
    [(1, Varint, [150; 1]); (2, Varint, [5]); (3, LengthDelimited, [97; 98; 99]); (4, Bit32, [1; 2; 3; 4]);
     (5, Bit64, [1; 2; 3; 4; 5; 6; 7; 8])] /\
  message m ([136; 0; 128; 128; 1] ++ [16; 5; 26; 3; 255; 0; 8; 37; 1; 2; 3; 4; 41; 1; 2; 3; 4; 5; 6; 7; 8])
    [(1, Varint, [128; 128; 1]); (2, Varint, [5]); (3, LengthDelimited, [255; 0; 8]); (4, Bit32, [1; 2; 3; 4]);
     (5, Bit64, [1; 2; 3; 4; 5; 6; 7; 8])] /\
  replaces Varint [150; 1] [128; 128; 1] /\ replaces LengthDelimited [97; 98; 99] [255; 0; 8].
Proof.
  intros m. refine (conj _ _).
  - repeat (apply Forall_cons; [reflexivity|]); apply Forall_nil.
  - refine (conj _ (conj _ (conj _ (conj _ (conj _ _))))); try (destruct m; vm_compute; reflexivity).
    exists (0 + 128 * (0 + 128 * 1)). apply (leb_more 0); [reflexivity|]. apply (leb_more 0); [reflexivity|]. constructor. reflexivity.
Qed.

(* The converse of taking a message off the front needs the front to be a message: here the
   end of a bytes payload is a message, the whole is one, and the front is none. *)
Example C117_message_split_needs : forall m,
  message m ([10; 2] ++ [8; 1]) [(1, LengthDelimited, [8; 1])] /\ message m [8; 1] [(1, Varint, [1])] /\
  forall fs, ~ message m [10; 2] fs.
Proof.
  intros m. refine (conj _ (conj _ _)); try (destruct m; vm_compute; reflexivity).
  intros fs H. unfold message in H. destruct m; vm_compute in H; discriminate H.
Qed.

(* A payload of another length cannot take the place: the length before it still counts. *)
Example C117_message_patch_needs : forall m,
  message m [10; 2; 97; 98; 16; 1] [(1, LengthDelimited, [97; 98]); (2, Varint, [1])] /\
  forall fs, ~ message m [10; 2; 97; 16; 1] ((1, LengthDelimited, [97]) :: fs).
Proof.
  intros m. split; [destruct m; vm_compute; reflexivity|].
  intros fs H. unfold message in H. destruct m; vm_compute in H; discriminate H.
Qed.
