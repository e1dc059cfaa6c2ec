(** C68, C69: values and texts of the Go interface. *)
From Coq Require Import Lia ZArith List Bool String.
From Verif Require Import Base SpecEvm Floria GoTypes GoTypesFacts.
Import ListNotations.
Local Open Scope list_scope.
Local Open Scope Z_scope.

(** ** C68: a Value stands for the number whose 32 bytes it has, most significant first ([be]) *)
Theorem C68_add : forall a b, zlen a = 32 /\ Forall is_byte a -> zlen b = 32 /\ Forall is_byte b ->
  (zlen (Add a b) = 32 /\ Forall is_byte (Add a b)) /\ be (Add a b) = (be a + be b) mod 2 ^ 256.
Proof. exact add_ok. Qed.
Theorem C68_sub : forall a b, zlen a = 32 /\ Forall is_byte a -> zlen b = 32 /\ Forall is_byte b ->
  (zlen (Sub a b) = 32 /\ Forall is_byte (Sub a b)) /\ be (Sub a b) = (be a - be b) mod 2 ^ 256.
Proof. exact sub_ok. Qed.
Theorem C68_cmp : forall a b, zlen a = zlen b -> Forall is_byte a -> Forall is_byte b -> Cmp a b = match be a ?= be b with Lt => -1 | Eq => 0 | Gt => 1 end.
Proof. exact cmp_ok. Qed.
Theorem C68_new_value : forall args, zlen args <= 4 -> Forall (fun x => 0 <= x < 2 ^ 64) args ->
  exists v, NewValue args = Some v /\ (zlen v = 32 /\ Forall is_byte v) /\ be v = fold_left (fun n x => 2 ^ 64 * n + x) args 0.
Proof. exact new_value_ok. Qed.
Theorem C68_size_in_words : forall n, 0 <= n < 2 ^ 64 -> 32 * (SizeInWords n - 1) < n <= 32 * SizeInWords n.
Proof. exact size_in_words_ok. Qed.
(** carries and borrows across all limbs; sizes near the end of the type *)
Example C68_case :
  let max := repeat 255 32 in let one := repeat 0 31 ++ [1] in
  be max = 2 ^ 256 - 1 /\ NewValue [1] = Some one /\ Add max one = repeat 0 32 /\ Sub (repeat 0 32) one = max /\
  Add (repeat 0 8 ++ repeat 255 24) one = repeat 0 7 ++ [1] ++ repeat 0 24 /\ Cmp one max = -1 /\ Cmp max max = 0 /\
  SizeInWords (2 ^ 64 - 1) = 2 ^ 59 /\ SizeInWords 33 = 2.
Proof. repeat split; vm_compute; reflexivity. Qed.
Print Assumptions C68_add.
Print Assumptions C68_sub.
Print Assumptions C68_cmp.
Print Assumptions C68_new_value.
Print Assumptions C68_size_in_words.

(** ** C69: what is written can be read, and what is read is what was written up to the case of letters *)
Theorem C69_text : forall bs, Forall is_byte bs -> textToBytes (zlen bs) (bytesToText bs) = Some bs.
Proof. exact text_roundtrip. Qed.
Theorem C69_text_read : forall n text bs, textToBytes n text = Some bs -> zlen bs = n /\ Forall is_byte bs /\ bytesToText bs = map lower text.
Proof. exact text_accepted. Qed.
Theorem C69_kind : forall k text, kind_text k = Some text -> kind_of_text text = Some k.
Proof. exact kind_roundtrip. Qed.
Theorem C69_kind_read : forall text k, kind_of_text text = Some k -> 0 <= k < 6 /\ kind_text k = Some (map lower text).
Proof. exact kind_accepted. Qed.
Theorem C69_revision : forall r, 0 <= r < 2 ^ 63 -> revision_of_text (revision_text r) = Some r.
Proof. exact revision_roundtrip. Qed.
Example C69_case :
  bytesToText [18; 0; 255] = ascii_bytes "0x1200ff" /\ textToBytes 3 (ascii_bytes "0x1200Ff") = Some [18; 0; 255] /\ textToBytes 2 (ascii_bytes "0x1200ff") = None /\
  textToBytes 1 (ascii_bytes "0X12") = None /\ textToBytes 1 (ascii_bytes "0x1g") = None /\ textToBytes 1 (ascii_bytes "0x1") = None /\
  kind_of_text (ascii_bytes "Static_Call") = Some 2 /\ revision_text 2 = ascii_bytes "London" /\ revision_text 17 = ascii_bytes "Revision(17)".
Proof. repeat split; vm_compute; reflexivity. Qed.
(** revisions are ints: negative ones are written, but cannot be read; texts around a revision are ignored, and another text can stand for a known revision *)
Theorem C69_revision_refuted :
  (forall r, -2 ^ 63 <= r < 0 -> exists digits, revision_text r = ascii_bytes "Revision(-" ++ digits ++ [41]) /\
  revision_of_text (ascii_bytes "Revision(-1)") = None /\
  revision_of_text (ascii_bytes "no Revision(3), really") = Some 3 /\ revision_text 3 = ascii_bytes "Paris".
Proof.
  split; [|repeat split; vm_compute; reflexivity].
  intros r H. exists (digits 20 (- r)). unfold revision_text, decimal. assert (E : znth revision_names r = None) by (unfold znth; destruct (Z.ltb_spec r 0); [reflexivity|lia]).
  rewrite E. destruct (Z.ltb_spec r 0); [|lia]. reflexivity.
Qed.
Print Assumptions C69_text.
Print Assumptions C69_text_read.
Print Assumptions C69_kind.
Print Assumptions C69_kind_read.
Print Assumptions C69_revision.
Print Assumptions C69_revision_refuted.
