(** The file of Sample.v, opened.  It is computed once, here. *)
From Verif Require Import Base File Sample.

Ltac result e := let x := eval vm_compute in e in match x with Ok ?f => exact f end.
Definition sample_opened : file := ltac:(result (open_file (f_disk sample_file))).
Lemma sample_opens : open_file (f_disk sample_file) = Ok sample_opened.
Proof. vm_cast_no_check (@eq_refl (res file) (Ok sample_opened)). Qed.
