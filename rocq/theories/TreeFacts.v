(** Facts about trees that the properties of trees use. *)
From Verif Require Import Base Bytes RBuf WBuf Values Key Header Obj TreeObj File Column ColRead SpecTree.

Lemma longest_in cs : longest cs = 0%nat \/ exists c, In c cs /\ longest cs = length (c_values c).
Proof.
  unfold longest. induction cs as [|c cs IH]; [now left|]. cbn [map list_max fold_right]. change (fold_right Nat.max 0%nat (map (fun c => length (c_values c)) cs)) with (list_max (map (fun c => length (c_values c)) cs)).
  destruct (Nat.max_spec (length (c_values c)) (list_max (map (fun c => length (c_values c)) cs))) as [[_ ->]|[_ ->]].
  - destruct IH as [IH|(x & I & IH)]; [now left|]. right. exists x. split; [now right|exact IH].
  - right. exists c. split; [now left|reflexivity].
Qed.

Section Ind.
Variable Q : branch -> Prop.
Hypothesis H : forall top c e subs ls bks, Forall Q subs -> Q (Br top c e subs ls bks).
Fixpoint branch_ind' (b : branch) : Q b :=
  let '(Br top c e subs ls bks) := b in
  H top c e subs ls bks ((fix go (l : list branch) : Forall Q l :=
    match l with [] => Forall_nil Q | s :: r => Forall_cons s (branch_ind' s) (go r) end) subs).
End Ind.

Lemma find_app' {A} (p : A -> bool) l m : find p (l ++ m) = match find p l with Some x => Some x | None => find p m end.
Proof. induction l as [|a l IH]; [reflexivity|]. cbn [app find]. destruct (p a); [reflexivity|exact IH]. Qed.

Lemma find_in_gen name l : Forall (fun b => find_branch name b = find (fun x => beqb (br_name x) name) (branches_r b)) l ->
  find_in name l = find (fun x => beqb (br_name x) name) (flat_map (fun s => s :: branches_r s) l).
Proof.
  induction 1 as [|s l E F IH]; [reflexivity|]. cbn [find_in flat_map app find].
  destruct (beqb (br_name s) name); [reflexivity|]. rewrite find_app', E, IH. reflexivity.
Qed.
Lemma find_branch_in name top c e subs ls bks : find_branch name (Br top c e subs ls bks) = find_in name subs.
Proof.
  cbn [find_branch]. induction subs as [|s r IH]; [reflexivity|]. cbn [find_in].
  destruct (beqb (br_name s) name); [reflexivity|]. destruct (find_branch name s); [reflexivity|]. exact IH.
Qed.
Lemma find_branch_first name b : find_branch name b = find (fun x => beqb (br_name x) name) (branches_r b).
Proof.
  induction b as [top c e subs ls bks F] using branch_ind'. rewrite find_branch_in. cbn [branches_r]. now apply find_in_gen.
Qed.
Lemma tree_branch_first t name : tree_branch t name = find (fun b => beqb (br_name b) name) (tree_branches_r t).
Proof. apply find_in_gen. apply Forall_forall. intros b _. apply find_branch_first. Qed.
