(** The text of size and stride vectors. *)
From Verif.Proofs Require Import VecText.
From Verif.Model Require Import VecText.
Local Open Scope Z_scope.

(** C73: to_string() of a vector lists the decimal forms of the elements in brackets. *)
Theorem C73_form : forall l, vec_to_string l = "[" +:+ String.concat ", " (map pretty l) +:+ "]".
Proof. exact vec_form. Qed.
Print Assumptions C73_form.
(** C73: reading the text gives the vector back, so different vectors have different texts.
    [read_vector] is in Spec/Vector.v. *)
Theorem C73_read : forall l, read_vector (vec_to_string l) = Some l.
Proof. exact vec_read. Qed.
Print Assumptions C73_read.
Example C73_example :
  vec_to_string [] = "[]" /\ vec_to_string [18446744073709551615; 0; -120] = "[18446744073709551615, 0, -120]" /\
  vec_to_string [1; 2] <> vec_to_string [12] /\ read_vector "[1,2]" = None /\ read_vector "[1, 2" = None.
Proof. split_and!; vm_compute; first [reflexivity|discriminate]. Qed.
