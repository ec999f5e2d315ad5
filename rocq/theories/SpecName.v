(** How many of the objects written to a file have the same name. *)
From Verif Require Import Base.

Definition times (n : bytes) (names : list bytes) : Z := zlen (filter (beqb n) names).

(** No name is used more than 32767 times (a file keeps sixteen bits to tell objects of
    the same name apart, see finding 35). *)
Definition few (names : list bytes) : Prop := forall n, times n names <= 32767.

Lemma times_app n a b : times n (a ++ b) = times n a + times n b.
Proof. unfold times. rewrite filter_app, zlen_app. reflexivity. Qed.
Lemma times_nonneg n a : 0 <= times n a.
Proof. apply zlen_nonneg. Qed.
Lemma times_one n : times n [n] = 1.
Proof. unfold times. cbn [filter]. rewrite beqb_refl. reflexivity. Qed.
Lemma times_le n a : times n a <= zlen a.
Proof.
  induction a as [|x a IH]; [apply Z.le_refl|]. change (x :: a) with ([x] ++ a). rewrite times_app, zlen_app.
  assert (times n [x] <= 1) by (unfold times; cbn [filter]; destruct (beqb n x); vm_compute; discriminate). change (zlen [x]) with 1. lia.
Qed.
Lemma few_short names : zlen names <= 32767 -> few names.
Proof. intros H n. pose proof (times_le n names). lia. Qed.
Lemma few_next {A} (g : A -> bytes) a x b : few (map g (a ++ x :: b)) -> times (g x) (map g a) < 32767.
Proof.
  intros H. specialize (H (g x)). change (x :: b) with ([x] ++ b) in H. rewrite !map_app, !times_app in H.
  change (map g [x]) with [g x] in H. rewrite times_one in H. pose proof (times_nonneg (g x) (map g b)). lia.
Qed.
