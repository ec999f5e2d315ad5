(** What a session writes does not depend on callbacks. *)
From Verif Require Import Base Values Key Obj TreeObj File Column TreeWrite TreeSession Spec SpecTree SpecSame SessFacts.

(** Two results that agree on what [g] shows of them. *)
Definition shown {A B} (g : A -> B) (r : res A) : res B :=
  match r with Ok a => Ok (g a) | Err e => Err e | Panic => Panic | Unmodelled => Unmodelled | OutOfFuel => OutOfFuel end.
Definition agree {A B} (g : A -> B) (x y : file * res A) : Prop := fst x = fst y /\ shown g (snd x) = shown g (snd y).

Lemma agree_refl {A B} (g : A -> B) x : agree g x x. Proof. split; reflexivity. Qed.
Lemma agree_bind {A B C D} (g : A -> B) (h : C -> D) (m m' : FM A) (k k' : A -> FM C) f :
  agree g (m f) (m' f) -> (forall a a' f, g a = g a' -> agree h (k a f) (k' a' f)) -> agree h (fbind m k f) (fbind m' k' f).
Proof.
  unfold fbind. destruct (m f) as [f1 r], (m' f) as [f2 r']. intros (E & R) K. cbn [fst snd] in *. subst f2.
  destruct r as [a|e| | |], r' as [a'|e'| | |]; cbn [shown] in R; try discriminate; try apply agree_refl.
  - apply K. now injection R.
  - injection R as <-. apply agree_refl.
Qed.
Lemma agree_same {A C D} (h : C -> D) (m : FM A) (k k' : A -> FM C) f :
  (forall a f, agree h (k a f) (k' a f)) -> agree h (fbind m k f) (fbind m k' f).
Proof. intros K. apply (agree_bind (fun a => a)); [apply agree_refl|]. intros a a' f' ->. apply K. Qed.

Definition no_events2 {A B C} (x : A * B * C) : A * B := fst x.
Lemma row_agree tn n n' cols : forall tot f, agree no_events2 (write_row tn n cols tot f) (write_row tn n' cols tot f).
Proof.
  induction cols as [|[c d] r IH]; intros tot f; cbn [write_row]; [apply agree_refl|].
  apply agree_same. intros cn f1. apply agree_same. intros tot' f2. eapply agree_bind; [apply IH|].
  intros [[a b] e] [[a' b'] e'] f3 E. unfold no_events2 in E. cbn [fst] in E. injection E as -> ->. split; reflexivity.
Qed.
Lemma rows_agree fuel tn n n' : forall t cols ev ev' f, agree no_events2 (write_rows fuel tn n t cols ev f) (write_rows fuel tn n' t cols ev' f).
Proof.
  induction fuel as [|k IH]; intros t cols ev ev' f; cbn [write_rows]; [apply agree_refl|].
  eapply agree_bind; [apply (row_agree tn n n')|]. intros [[a b] e] [[a' b'] e'] f3 E. unfold no_events2 in E. cbn [fst] in E. injection E as -> ->.
  destruct (forallb snd a'); [split; reflexivity|apply IH].
Qed.

Definition heard_less (w : wtree) := (wt_tree w, wt_cols w, wt_sinfos w).
Section DB.
Variable db : bytes -> Z -> option sinfo.
Lemma tree_write_agree w w' f : heard_less w = heard_less w' -> agree (fun _ => tt) (tree_write db w f) (tree_write db w' f).
Proof.
  destruct w as [t c s n ev], w' as [t' c' s' n' ev']. unfold heard_less. cbn [wt_tree wt_cols wt_sinfos]. intros E. injection E as <- <- <-.
  unfold tree_write. cbn [wt_tree wt_cols wt_sinfos wt_cbs wt_events]. cbv zeta. eapply agree_bind; [apply rows_agree|].
  intros [[a b] e] [[a' b'] e'] f3 E. unfold no_events2 in E. cbn [fst] in E. injection E as -> ->.
  apply agree_same. intros x f4. split; reflexivity.
Qed.
Lemma build_agree ops : forall w, shown heard_less (build w ops) =
  shown heard_less (build w (map (fun s => BBranch (cs_name s) (cs_ty s) (cs_it s)) (cols_of ops))).
Proof.
  assert (K : forall ops w w', heard_less w = heard_less w' -> shown heard_less (build w ops) = shown heard_less (build w' ops)).
  { clear. induction ops as [|o ops IH]; intros w w' E; cbn [build shown]; [now rewrite E|].
    destruct w as [t c s n ev], w' as [t' c' s' n' ev']. unfold heard_less in E. cbn [wt_tree wt_cols wt_sinfos] in E. injection E as <- <- <-.
    destruct o as [nm ty it|]; cbn [build_step rbind].
    - unfold new_branch. cbn [wt_tree wt_cols wt_sinfos]. destruct (wcol_new nm ty it) as [[wc sis]| | | |]; cbn [rbind]; try reflexivity.
      destruct (match s with Some l => _ | None => _ end) as [x| | | |]; cbn [rbind]; try reflexivity. apply IH. reflexivity.
    - apply IH. reflexivity. }
  induction ops as [|o ops IH]; intros w; [reflexivity|]. destruct o as [nm ty it|]; cbn [build cols_of map build_step].
  - cbn [cs_name cs_ty cs_it]. destruct (new_branch w nm ty it) as [w'| | | |]; cbn [rbind]; try reflexivity. apply IH.
  - cbn [rbind]. rewrite <- IH. apply K. reflexivity.
Qed.
Lemma write_one_agree p p' f : tp_name p = tp_name p' -> cols_of (tp_ops p) = cols_of (tp_ops p') ->
  agree (fun _ => tt) (write_one db p f) (write_one db p' f).
Proof.
  intros E1 E2. unfold write_one. rewrite E1. apply (agree_bind heard_less).
  - split; [reflexivity|]. unfold flift. cbn [snd]. rewrite build_agree, E2, <- build_agree. reflexivity.
  - intros w w' f1 E. eapply agree_bind; [apply tree_write_agree; exact E|]. intros a a' f2 _. split; reflexivity.
Qed.
Lemma write_trees_agree ps : forall ps' f, map (fun p => (tp_name p, cols_of (tp_ops p))) ps = map (fun p => (tp_name p, cols_of (tp_ops p))) ps' ->
  agree (fun _ => tt) (write_trees db ps f) (write_trees db ps' f).
Proof.
  induction ps as [|p ps IH]; intros [|p' ps'] f E; try discriminate; [apply agree_refl|]. cbn [map] in E. injection E as E1 E2 E3. cbn [write_trees].
  eapply agree_bind; [apply write_one_agree; assumption|]. intros a a' f1 _. eapply agree_bind; [apply IH; exact E3|]. intros b b' f2 _. split; reflexivity.
Qed.
Lemma session_agree path ps ps' : map (fun p => (tp_name p, cols_of (tp_ops p))) ps = map (fun p => (tp_name p, cols_of (tp_ops p))) ps' ->
  agree (fun _ => tt) (session db path ps) (session db path ps').
Proof.
  intros E. unfold session. destruct (create path) as [f r]. apply agree_same. intros x f1. eapply agree_bind; [apply write_trees_agree; exact E|].
  intros a a' f2 _. apply agree_same. intros y f3. split; reflexivity.
Qed.
End DB.

Lemma content_calls ts ts' : map content ts = map content ts' ->
  map (fun p => (tp_name p, cols_of (tp_ops p))) (map calls ts) = map (fun p => (tp_name p, cols_of (tp_ops p))) (map calls ts').
Proof.
  revert ts'. induction ts as [|t ts IH]; intros [|t' ts'] E; try discriminate; [reflexivity|]. cbn [map] in *. injection E as E1 E2 E3.
  rewrite (IH ts' E3), !cols_of_calls, E2. change (tp_name (calls t)) with (tb_name t). rewrite E1. reflexivity.
Qed.
