(** What the derived writer gives to the branches. *)
From Verif Require Import SpecDerive SessFacts TreeOps CodecFacts.
From Verif Require Export Derive.

Section Ind.
Variable Q : wty -> Prop.
Hypothesis HL : forall t, Q (WLeaf t).
Hypothesis HS : forall fs, Forall (fun f => Q (snd f)) fs -> Q (WStruct fs).
Fixpoint wty_ind' (w : wty) : Q w :=
  match w with
  | WLeaf t => HL t
  | WStruct fs => HS fs ((fix go (l : list (bytes * wty)) : Forall (fun f => Q (snd f)) l :=
      match l with [] => Forall_nil _ | f :: r => Forall_cons f (wty_ind' (snd f)) (go r) end) fs)
  end.
End Ind.

(** What field [j] gets when the structure has [o]. *)
Definition proj (j : nat) (o : option sval) : option sval :=
  match o with Some (SStruct l) => nth_error l j | _ => None end.
(** What field [j] of a nested structure was sent, from what the structure was sent in
    earlier rows (the last one first). *)
Definition hist (j : nat) (h : list (option sval)) : list (option sval) :=
  match h with [] => [] | _ :: h' => map (proj j) h' ++ [None] end.
(** The state of a nested node after rows in which it was sent [h]. *)
Fixpoint st (w : wty) (h : list (option sval)) : node :=
  match w with
  | WLeaf _ => NLeaf None
  | WStruct fs => NStruct (hd None h)
      ((fix go (j : nat) (l : list (bytes * wty)) : list node :=
          match l with [] => [] | f :: r => st (snd f) (hist j h) :: go (S j) r end) 0%nat fs)
  end.
Definition sts (h : nat -> list (option sval)) := fix go (j : nat) (l : list (bytes * wty)) : list node :=
  match l with [] => [] | f :: r => st (snd f) (h j) :: go (S j) r end.
(** What its branches take in the last of these rows. *)
Fixpoint outs (w : wty) (h : list (option sval)) : list (option sval) :=
  match w with
  | WLeaf _ => [hd None h]
  | WStruct fs => (fix go (j : nat) (l : list (bytes * wty)) : list (option sval) :=
          match l with [] => [] | f :: r => outs (snd f) (hist j h) ++ go (S j) r end) 0%nat fs
  end.
Definition outss (h : nat -> list (option sval)) := fix go (j : nat) (l : list (bytes * wty)) : list (option sval) :=
  match l with [] => [] | f :: r => outs (snd f) (h j) ++ go (S j) r end.

Lemma sts_ext h h' l : (forall j, h j = h' j) -> forall j, sts h j l = sts h' j l.
Proof. intros E. induction l as [|f l IH]; intros j; cbn [sts]; [reflexivity|]. now rewrite E, IH. Qed.
Lemma outss_ext h h' l : (forall j, h j = h' j) -> forall j, outss h j l = outss h' j l.
Proof. intros E. induction l as [|f l IH]; intros j; cbn [outss]; [reflexivity|]. now rewrite E, IH. Qed.

Lemma st_new w : st w [] = new_node w.
Proof.
  induction w as [t|fs IH] using wty_ind'; [reflexivity|]. cbn [st new_node hd]. f_equal. fold (sts (fun j => hist j [])).
  generalize 0%nat. induction IH as [|f fs E _ IHf]; intros j; cbn [sts map]; [reflexivity|]. cbn [hist]. rewrite E. f_equal. apply IHf.
Qed.

(** Sending to the fields. *)
Fixpoint sends (c : option sval) (j : nat) (l : list node) : list node :=
  match l with [] => [] | n :: r => send (proj j c) n :: sends c (S j) r end.
Lemma distribute_sends c l : distribute c l = sends c 0 l.
Proof.
  assert (N : forall j, (forall i, proj (j + i) c = None) -> map (send None) l = sends c j l).
  { induction l as [|n l IH]; intros j H; cbn [map sends]; [reflexivity|]. rewrite <- (IH (S j)).
    - specialize (H 0%nat). rewrite Nat.add_0_r in H. now rewrite H.
    - intros i. specialize (H (S i)). now rewrite Nat.add_succ_r in H. }
  destruct c as [[v|k|k]|]; cbn [distribute]; try (apply N; reflexivity). clear N.
  assert (G : forall l k pre, send_all k l = sends (Some (SStruct (pre ++ k))) (length pre) l).
  { clear. induction l as [|n l IH]; intros k pre; [now destruct k|]. destruct k as [|v k]; cbn [send_all sends proj].
    - rewrite app_nil_r. rewrite (proj2 (nth_error_None pre (length pre))) by lia. cbn [map]. f_equal.
      assert (G : forall j, (length pre <= j)%nat -> map (send None) l = sends (Some (SStruct pre)) j l).
      { clear. induction l as [|n l IH]; intros j H; cbn [map sends proj]; [reflexivity|].
        rewrite (proj2 (nth_error_None pre j)) by lia. now rewrite (IH (S j)) by lia. }
      apply G. lia.
    - rewrite nth_error_app2 by lia. rewrite Nat.sub_diag. cbn [nth_error]. f_equal.
      rewrite (IH k (pre ++ [v])), <- app_assoc, app_length, Nat.add_1_r. reflexivity. }
  apply (G l k []).
Qed.

Lemma hist_cons j x h : hist j (x :: h) = proj j (hd None h) :: hist j h.
Proof. destruct h as [|y h]; reflexivity. Qed.

Definition row_spec (w : wty) : Prop := forall h x,
  drained (send x (run_callbacks (st w h))) = st w (x :: h) /\ pulls (send x (run_callbacks (st w h))) = outs w (x :: h).

Lemma fields_row fs (hs hs' : nat -> list (option sval)) c : Forall (fun f => row_spec (snd f)) fs ->
  (forall j, hs' j = proj j c :: hs j) -> forall j,
  map drained (sends c j (map run_callbacks (sts hs j fs))) = sts hs' j fs /\
  flat_map pulls (sends c j (map run_callbacks (sts hs j fs))) = outss hs' j fs.
Proof.
  intros F E. induction F as [|f fs R _ IH]; intros j; cbn [sts outss map sends flat_map]; [split; reflexivity|].
  destruct (R (hs j) (proj j c)) as [R1 R2]. destruct (IH (S j)) as [I1 I2]. rewrite E. split; f_equal; assumption.
Qed.

Lemma node_row w : row_spec w.
Proof.
  induction w as [t|fs IH] using wty_ind'; intros h x.
  - split; reflexivity.
  - cbn [st run_callbacks send drained pulls outs hd]. fold (sts (fun j => hist j h)) (sts (fun j => hist j (x :: h))) (outss (fun j => hist j (x :: h))).
    rewrite distribute_sends.
    destruct (fields_row fs (fun j => hist j h) (fun j => hist j (x :: h)) (hd None h) IH (fun j => hist_cons j x h) 0%nat) as [F1 F2].
    split; [now rewrite F1|exact F2].
Qed.

(** All rows of the outermost structure; [h] are the items of the rows before. *)
Fixpoint item_rows (k : nat) (items : list sval) (h : list (option sval)) : list (list (option sval)) :=
  match k with O => [] | S k' => (hd_error items :: h) :: item_rows k' (tl items) (hd_error items :: h) end.
Lemma rounds_outs fs : forall k items h,
  rounds k items (NStruct None (sts (fun j => map (proj j) h) 0 fs)) =
  map (fun h => outss (fun j => map (proj j) h) 0 fs) (item_rows k items h).
Proof.
  induction k as [|k IH]; intros items h; cbn [rounds item_rows map]; [reflexivity|]. cbn [send run_callbacks pulls drained].
  rewrite distribute_sends.
  assert (F : Forall (fun f => row_spec (snd f)) fs) by (apply Forall_forall; intros; apply node_row).
  destruct (fields_row fs (fun j => map (proj j) h) (fun j => map (proj j) (hd_error items :: h)) (hd_error items) F (fun j => eq_refl) 0%nat) as [F1 F2].
  rewrite F2, F1. f_equal. apply (IH (tl items) (hd_error items :: h)).
Qed.

(** ** Leaf by leaf *)

Definition unplain (o : option sval) : option val := unval o.
Fixpoint accs (w : wty) : list (sval -> option val) :=
  match w with
  | WLeaf _ => [fun v => unval (Some v)]
  | WStruct fs => (fix go (j : nat) (l : list (bytes * wty)) : list (sval -> option val) :=
      match l with
      | [] => []
      | f :: r => map (fun a v => match proj j (Some v) with Some u => a u | None => None end) (accs (snd f)) ++ go (S j) r
      end) 0%nat fs
  end.
Definition accss := fix go (j : nat) (l : list (bytes * wty)) : list (sval -> option val) :=
  match l with
  | [] => []
  | f :: r => map (fun a v => match proj j (Some v) with Some u => a u | None => None end) (accs (snd f)) ++ go (S j) r
  end.
Definition at_acc (a : sval -> option val) (o : option sval) : option val := match o with Some v => a v | None => None end.
Definition depths (d : nat) (fs : list (bytes * wty)) : list nat := flat_map (fun f => map snd (plain_of (fst f) d (snd f))) fs.

Lemma depth_shift w : forall n n' d, map snd (plain_of n (S d) w) = map S (map snd (plain_of n' d w)).
Proof.
  induction w as [t|fs IH] using wty_ind'; intros n n' d; [reflexivity|]. cbn [plain_of].
  induction IH as [|f fs E _ IHf]; cbn [flat_map map]; [reflexivity|]. rewrite !map_app, IHf. f_equal. apply E.
Qed.
Lemma depth_name w n n' d : map snd (plain_of n d w) = map snd (plain_of n' d w).
Proof. destruct w; reflexivity. Qed.
Lemma accs_length w : forall n d, length (accs w) = length (plain_of n d w).
Proof.
  induction w as [t|fs IH] using wty_ind'; intros n d; [reflexivity|]. cbn [accs plain_of]. fold accss. generalize 0%nat.
  induction IH as [|f fs E _ IHf]; intros j; cbn [accss flat_map]; [reflexivity|]. rewrite !app_length, map_length, IHf. f_equal. apply E.
Qed.

Lemma combine_app {A B} (a a' : list A) (b b' : list B) : length a = length b -> combine (a ++ a') (b ++ b') = combine a b ++ combine a' b'.
Proof. revert b; induction a as [|x a IH]; intros [|y b] L; try discriminate L; cbn; [reflexivity|]. f_equal. apply IH. now injection L. Qed.
Lemma combine_map_l {A B C} (g : A -> C) (a : list A) (b : list B) : combine (map g a) b = map (fun p => (g (fst p), snd p)) (combine a b).
Proof. revert b; induction a as [|x a IH]; intros [|y b]; cbn; try reflexivity. f_equal. apply IH. Qed.
Lemma combine_map_r {A B C} (g : B -> C) (a : list A) (b : list B) : combine a (map g b) = map (fun p => (fst p, g (snd p))) (combine a b).
Proof. revert b; induction a as [|x a IH]; intros [|y b]; cbn; try reflexivity. f_equal. apply IH. Qed.

(** Taking leaf values from the rows. *)
Lemma outs_leaves w : forall h n, map unval (outs w h) = map (fun ad => at_acc (fst ad) (nth (snd ad) h None)) (combine (accs w) (map snd (plain_of n 0 w))).
Proof.
  induction w as [t|fs IH] using wty_ind'; intros h n; cbn [outs accs plain_of].
  - cbn [map snd combine at_acc fst]. destruct h as [|[v|] h]; reflexivity.
  - fold (outss (fun j => hist j h)) accss. remember 1%nat as one eqn:O1. generalize 0%nat.
    induction IH as [|f fs E _ IHf]; intros j; cbn [outss accss flat_map map]; [reflexivity|].
    rewrite !map_app, combine_app by (rewrite !map_length; apply accs_length). rewrite map_app, IHf. f_equal.
    rewrite (E (hist j h) (fst f)), O1, (depth_shift (snd f) (fst f) (fst f)), combine_map_l, (combine_map_r S), !map_map. apply map_ext. intros [a d]. cbn [fst snd].
    destruct h as [|x h]; cbn [hist nth]; [destruct d; reflexivity|].
    unfold at_acc. destruct (Nat.lt_ge_cases d (length h)) as [L|L].
    + rewrite app_nth1 by now rewrite map_length. change (@None sval) with (proj j None) at 1. rewrite map_nth. destruct (nth d h None); reflexivity.
    + rewrite app_nth2 by now rewrite map_length. rewrite (nth_overflow h) by assumption. rewrite map_length.
      destruct (d - length h)%nat as [|[|k]]; reflexivity.
Qed.

Lemma outss_leaves fs h : forall j, map unval (outss (fun j => map (proj j) h) j fs) =
  map (fun ad => at_acc (fst ad) (nth (snd ad) h None)) (combine (accss j fs) (depths 0 fs)).
Proof.
  induction fs as [|f fs IH]; intros j; cbn [outss accss depths flat_map map]; [reflexivity|].
  rewrite map_app, combine_app by (rewrite !map_length; apply accs_length). rewrite map_app, IH. f_equal.
  rewrite (outs_leaves (snd f) _ (fst f)), combine_map_l, map_map. apply map_ext. intros [a d]. cbn [fst snd].
  change (@None sval) with (proj j None) at 1. rewrite map_nth. destruct (nth d h None); reflexivity.
Qed.

(** Typed items have all leaves. *)
Scheme is_a_ind2 := Minimality for is_a Sort Prop with are_ind2 := Minimality for are Sort Prop.
Lemma accs_values w v : is_a w v -> map (fun a => a v) (accs w) = map Some (plain_values v).
Proof.
  intros H. apply (is_a_ind2
    (fun w v => map (fun a => a v) (accs w) = map Some (plain_values v))
    (fun fs l => forall pre, map (fun a => a (SStruct (pre ++ l))) (accss (length pre) fs) = map Some (flat_map plain_values l)));
    [| | | |exact H]; clear w v H.
  - intros t v _. reflexivity.
  - intros fs l _ IH. cbn [accs plain_values]. apply (IH []).
  - reflexivity.
  - intros n w r v l _ IH1 _ IH2 pre. cbn [accss flat_map]. rewrite !map_app. f_equal.
    + rewrite map_map. cbn [proj snd]. rewrite nth_error_app2, Nat.sub_diag by lia. cbn [nth_error]. exact IH1.
    + specialize (IH2 (pre ++ [v])). rewrite <- app_assoc, app_length, Nat.add_1_r in IH2. exact IH2.
Qed.
Lemma accss_values fs l : are fs l -> map (fun a => a (SStruct l)) (accss 0 fs) = map Some (flat_map plain_values l).
Proof. intros H. exact (accs_values (WStruct fs) (SStruct l) (is_struct fs l H)). Qed.

(** ** The calls on the tree *)

Lemma tree_calls_leaves w : forall n d rs j r, 
  cols_of (with_providers rs j (tree_calls n w ++ r)) =
  map (fun p => mkCS (fst (fst (fst p))) (snd (fst (fst p))) (provider rs (snd p))) (combine (plain_of n d w) (seq j (length (plain_of n d w)))) ++
  cols_of (with_providers rs (j + length (plain_of n d w)) r).
Proof.
  induction w as [t|fs IH] using wty_ind'; intros n d rs j r.
  - cbn [tree_calls plain_of app with_providers cols_of length seq combine map fst snd]. now rewrite Nat.add_1_r.
  - cbn [tree_calls plain_of]. rewrite <- app_assoc.
    transitivity (map (fun p => mkCS (fst (fst (fst p))) (snd (fst (fst p))) (provider rs (snd p)))
        (combine (flat_map (fun f => plain_of (fst f) (S d) (snd f)) fs) (seq j (length (flat_map (fun f => plain_of (fst f) (S d) (snd f)) fs)))) ++
      cols_of (with_providers rs (j + length (flat_map (fun f => plain_of (fst f) (S d) (snd f)) fs)) ([None] ++ r))); [|reflexivity].
    generalize ([None] ++ r) as q. clear r. intros q. revert j. induction IH as [|f fs E _ IHf]; intros j; cbn [flat_map].
    + cbn [length]. now rewrite Nat.add_0_r.
    + rewrite <- app_assoc, (E (fst f) (S d) rs j), IHf, app_length, seq_app, combine_app by now rewrite seq_length.
      rewrite map_app, <- app_assoc, Nat.add_assoc. reflexivity.
Qed.

Lemma to_tree_cols name fs items :
  cols_of (tp_ops (to_tree name fs items)) =
  map (fun p => mkCS (fst (fst (fst p))) (snd (fst (fst p)))
         (provider (rounds (length items + nesting (WStruct fs)) items (new_node (WStruct fs))) (snd p)))
    (combine (plain_of [] 0 (WStruct fs)) (seq 0 (length (plain_of [] 0 (WStruct fs))))).
Proof.
  unfold to_tree. cbn [tp_ops]. rewrite <- (app_nil_r (tree_calls [] (WStruct fs))). rewrite (tree_calls_leaves (WStruct fs) [] 0).
  cbn [with_providers cols_of]. now rewrite app_nil_r.
Qed.
