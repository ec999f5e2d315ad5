(** Parts that cover every byte of a file once add up to the size of the file. *)
From Verif Require Import Base SpecRoom SpecDamage.

Lemma total_map {A B} (h : A -> B) (g : B -> Z) l : total g (map h l) = total (fun a => g (h a)) l.
Proof. induction l as [|a l IH]; [reflexivity|]. cbn [map total]. now rewrite IH. Qed.
Lemma total_flat {A B} (h : A -> list B) (g : B -> Z) l : total g (flat_map h l) = total (fun a => total g (h a)) l.
Proof.
  assert (AP : forall a b, total g (a ++ b) = total g a + total g b).
  { intros a b. induction a as [|x a IH]; cbn [app total]; [lia|rewrite IH; lia]. }
  induction l as [|a l IH]; [reflexivity|]. cbn [flat_map total]. now rewrite AP, IH.
Qed.

(** The bytes of a part below [n]. *)
Definition below (n : Z) (p : Z * Z) : Z := Z.max 0 (Z.min n (fst p + snd p) - Z.max 0 (fst p)).
Fixpoint owned (n : nat) (l : list (Z * Z)) : Z :=
  match n with O => 0 | S m => owned m l + Z.of_nat (owners (Z.of_nat m) l) end.

Lemma below_0 l : total (below 0) l = 0.
Proof. induction l as [|p l IH]; [reflexivity|]. cbn [total]. rewrite IH. unfold below. lia. Qed.
Lemma below_step n l : 0 <= n -> total (below (n + 1)) l = total (below n) l + Z.of_nat (owners n l).
Proof.
  intros N. induction l as [|p l IH]; [reflexivity|]. unfold owners in *. cbn [total filter].
  assert (E : below (n + 1) p = below n p + (if (fst p <=? n) && (n <? fst p + snd p) then 1 else 0)).
  { unfold below. destruct (Z.leb_spec (fst p) n), (Z.ltb_spec n (fst p + snd p)); cbn [andb]; lia. }
  rewrite E, IH. destruct (_ && _); cbn [length]; lia.
Qed.
Lemma owned_below n l : owned n l = total (below (Z.of_nat n)) l.
Proof.
  induction n as [|n IH]; [symmetry; apply below_0|].
  cbn [owned]. rewrite IH, Nat2Z.inj_succ, <- Z.add_1_r, below_step by lia. reflexivity.
Qed.
Lemma owned_once n l : (forall x, 0 <= x < Z.of_nat n -> owners x l = 1%nat) -> owned n l = Z.of_nat n.
Proof.
  induction n as [|n IH]; intros H; [reflexivity|]. cbn [owned]. rewrite IH by (intros x X; apply H; lia).
  rewrite (H (Z.of_nat n)) by lia. lia.
Qed.
Lemma owner_in x p l : In p l -> fst p <= x < fst p + snd p -> (1 <= owners x l)%nat.
Proof.
  intros I X. unfold owners. assert (J : In p (filter (fun p => (fst p <=? x) && (x <? fst p + snd p)) l)).
  { apply filter_In. split; [exact I|]. apply andb_true_iff. split; [apply Z.leb_le|apply Z.ltb_lt]; lia. }
  destruct (filter _ l); [destruct J|cbn [length]; lia].
Qed.

Lemma tiled n l : 0 <= n -> Forall (fun p => 0 <= snd p) l ->
  (forall x, 0 <= x < n -> owners x l = 1%nat) -> (forall x, x < 0 \/ n <= x -> owners x l = 0%nat) ->
  total snd l = n.
Proof.
  intros N F H1 H0. pose proof (owned_once (Z.to_nat n) l) as O. rewrite owned_below, Z2Nat.id in O by exact N.
  rewrite <- (O H1). clear O. rewrite Forall_forall in F.
  assert (G : forall p, In p l -> snd p = below n p).
  { intros p I. specialize (F p I). destruct (Z.eq_dec (snd p) 0) as [E|E]; [unfold below; lia|].
    assert (A : 0 <= fst p).
    { destruct (Z.le_gt_cases 0 (fst p)) as [L|L]; [exact L|]. pose proof (owner_in (fst p) p l I ltac:(lia)). rewrite H0 in H by lia. lia. }
    assert (B : fst p + snd p <= n).
    { destruct (Z.le_gt_cases (fst p + snd p) n) as [L|L]; [exact L|].
      pose proof (owner_in (fst p + snd p - 1) p l I ltac:(lia)). rewrite H0 in H by lia. lia. }
    unfold below. lia. }
  clear - G. induction l as [|p l IH]; [reflexivity|]. cbn [total]. rewrite (G p (or_introl eq_refl)). f_equal.
  apply IH. intros q I. apply G. now right.
Qed.
