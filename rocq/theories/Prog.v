(** Operations on files are built from a few steps; only [fwrite] and [fwriter] look
    at the mode in which a file was opened. *)
From Verif Require Import Base Bytes RBuf WBuf Values Key Header Obj Streamer TreeObj File FileLay FileOps FileMono FileClose
  Column ColOps TreeWrite TreeSession.

Inductive fprog : forall {A}, FM A -> Prop :=
| fp_ret A (a : A) : fprog (fret a)
| fp_lift A (r : res A) : fprog (flift r)
| fp_gets A (g : file -> A) : (forall f io, g (f_set_io f io) = g f) -> fprog (fgets g)
| fp_modify g : (forall f io, g (f_set_io f io) = f_set_io (g f) io) -> fprog (fmodify g)
| fp_fwrite p b : fprog (fwrite p b)
| fp_fwriter : fprog fwriter
| fp_bind A B (m : FM A) (k : A -> FM B) : fprog m -> (forall a, fprog (k a)) -> fprog (fbind m k).

Lemma fp_if {A} (b : bool) (m n : FM A) : fprog m -> fprog n -> fprog (if b then m else n).
Proof. destruct b; auto. Qed.
Lemma fp_fiter {A} (g : A -> FM unit) l : (forall a, fprog (g a)) -> fprog (fiter g l).
Proof. intros H. induction l; cbn [fiter]; [apply fp_ret|]. apply fp_bind; auto. Qed.

Create HintDb fprog.
#[export] Hint Resolve fp_ret fp_lift fp_fwrite fp_fwriter : fprog.
Ltac fprog :=
  repeat match goal with
  | |- fprog (fbind _ _) => apply fp_bind; [|intros]
  | |- fprog (if _ then _ else _) => apply fp_if
  | |- fprog (fmodify _) => apply fp_modify; intros; try reflexivity
  | |- fprog (fgets _) => apply fp_gets; intros; try reflexivity
  | |- fprog (match ?x with _ => _ end) => destruct x
  | |- fprog (let _ := _ in _) => cbv zeta
  | |- fprog (fiter _ _) => apply fp_fiter; intros
  | |- fprog _ => solve [auto with fprog]
  end.

Lemma fp_set_end p : fprog (set_end p). Proof. unfold set_end. fprog. Qed.
#[export] Hint Resolve fp_set_end : fprog.
Lemma fp_key_new n t c o : fprog (key_new n t c o). Proof. unfold key_new. fprog. Qed.
Lemma fp_key_from kl n t c cy b : fprog (key_from kl n t c cy b). Proof. unfold key_from. fprog. Qed.
Lemma fp_key_write k : fprog (key_write k). Proof. unfold key_write. fprog. Qed.
#[export] Hint Resolve fp_key_new fp_key_from fp_key_write : fprog.
Lemma fp_key_from_buffer n t c cy b : fprog (key_from_buffer n t c cy b). Proof. unfold key_from_buffer. fprog. Qed.
Lemma fp_key_from_object n t c m : fprog (key_from_object n t c m). Proof. unfold key_from_object. fprog. Qed.
#[export] Hint Resolve fp_key_from_buffer fp_key_from_object : fprog.
Lemma fp_add_sinfo si : fprog (add_sinfo si).
Proof. unfold add_sinfo. fprog. cbn [f_set_io f_sinfos]. destruct (existsb _ _); reflexivity. Qed.
#[export] Hint Resolve fp_add_sinfo : fprog.
Lemma fp_put db n o : fprog (put_obj db n o). Proof. unfold put_obj. fprog. Qed.
Lemma fp_save_keys d : fprog (save_keys d). Proof. unfold save_keys. fprog. Qed.
Lemma fp_write_dir d : fprog (write_dir d). Proof. unfold write_dir. fprog. Qed.
Lemma fp_write_fhdr : fprog write_fhdr. Proof. unfold write_fhdr. fprog. Qed.
#[export] Hint Resolve fp_put fp_save_keys fp_write_dir fp_write_fhdr : fprog.
Lemma fp_find_deep db : fprog (find_deep db). Proof. unfold find_deep, add_dep. fprog. Qed.
#[export] Hint Resolve fp_find_deep : fprog.
Lemma fp_write_sinfos db : fprog (write_sinfos db). Proof. unfold write_sinfos. fprog. Qed.
Lemma fp_write_free : fprog write_free. Proof. unfold write_free. fprog. Qed.
#[export] Hint Resolve fp_write_sinfos fp_write_free : fprog.
Lemma fp_close db : fprog (close db). Proof. unfold close. fprog. Qed.
Lemma fp_basket_write wb : fprog (basket_write wb). Proof. unfold basket_write. fprog. Qed.
#[export] Hint Resolve fp_close fp_basket_write : fprog.
Lemma fp_create_new_basket tn c : fprog (create_new_basket tn c). Proof. unfold create_new_basket. fprog. Qed.
Lemma fp_flush c : fprog (flush c). Proof. unfold flush. fprog. Qed.
#[export] Hint Resolve fp_create_new_basket fp_flush : fprog.
Lemma fp_write_entry tn c wb v : fprog (write_entry tn c wb v). Proof. unfold write_entry. fprog. Qed.
#[export] Hint Resolve fp_write_entry : fprog.
Lemma fp_wcol_write tn c : fprog (wcol_write tn c). Proof. unfold wcol_write. fprog. Qed.
#[export] Hint Resolve fp_wcol_write : fprog.
Lemma fp_write_row tn n l t : fprog (write_row tn n l t).
Proof. revert t; induction l as [|[c d] l IH]; intros t; cbn [write_row]; fprog. Qed.
#[export] Hint Resolve fp_write_row : fprog.
Lemma fp_write_rows fuel tn n t l ev : fprog (write_rows fuel tn n t l ev).
Proof. revert t l ev; induction fuel as [|fuel IH]; intros; cbn [write_rows]; fprog. Qed.
#[export] Hint Resolve fp_write_rows : fprog.
Lemma fp_flush_all l : fprog (flush_all l).
Proof. induction l as [|c l IH]; cbn [flush_all]; fprog. Qed.
#[export] Hint Resolve fp_flush_all : fprog.
Lemma fp_tree_close db t l s : fprog (tree_close db t l s). Proof. unfold tree_close. fprog. Qed.
#[export] Hint Resolve fp_tree_close : fprog.
Lemma fp_tree_write db t : fprog (tree_write db t). Proof. unfold tree_write. fprog. Qed.
#[export] Hint Resolve fp_tree_write : fprog.
Lemma fp_write_one db p : fprog (write_one db p). Proof. unfold write_one. fprog. Qed.
#[export] Hint Resolve fp_write_one : fprog.

(** Until its first write a program does the same in both modes. *)
Lemma fprog_read_only {A} (m : FM A) : fprog m -> forall f d l,
  snd (m (f_set_io f (IORead d))) = Err EReadOnly \/
  (exists f', m (f_set_io f (IOWrite l)) = (f_set_io f' (IOWrite l), snd (m (f_set_io f (IORead d)))) /\
              m (f_set_io f (IORead d)) = (f_set_io f' (IORead d), snd (m (f_set_io f (IORead d))))).
Proof.
  induction 1 as [A a|A r|A g H|g H|p b| |A B m k _ IHm _ IHk]; intros f d l.
  - right. exists f. auto.
  - right. exists f. auto.
  - right. exists f. unfold fgets. cbn [snd]. now rewrite !H.
  - right. exists (g f). unfold fmodify. cbn [snd]. now rewrite !H.
  - now left.
  - now left.
  - unfold fbind. destruct (IHm f d l) as [H|(f' & H1 & H2)].
    + left. destruct (m (f_set_io f (IORead d))) as [f' r]. cbn [snd] in *. subst r. reflexivity.
    + rewrite H1, H2. destruct (snd (m (f_set_io f (IORead d)))) as [a| | | |]; [|right; exists f'; auto..].
      apply IHk.
Qed.

(** Programs that write at least once if they succeed. *)
Definition must_write {A} (m : FM A) : Prop := forall f d a f', m (f_set_io f (IORead d)) <> (f', Ok a).

Lemma must_bind1 {A B} (m : FM A) (k : A -> FM B) : must_write m -> must_write (fbind m k).
Proof.
  intros H f d b f' E. unfold fbind in E. specialize (H f d).
  destruct (m (f_set_io f (IORead d))) as [f1 [a| | | |]]; try discriminate. now apply (H a f1).
Qed.
Lemma must_bind2 {A B} (m : FM A) (k : A -> FM B) : mono m -> (forall a, must_write (k a)) -> must_write (fbind m k).
Proof.
  intros M H f d b f' E. unfold fbind in E. specialize (M (f_set_io f (IORead d))).
  destruct (m (f_set_io f (IORead d))) as [f1 [a| | | |]]; try discriminate. cbn [fst f_set_io f_io io_ext] in M.
  apply (H a f1 d b f'). rewrite <- E. f_equal. destruct f1. cbn in M. now subst.
Qed.
Lemma must_lift_err {A} (r : res A) : (forall a, r <> Ok a) -> must_write (flift r).
Proof. intros H f d a f' E. unfold flift in E. injection E as _ E. now apply (H a). Qed.
Lemma must_key_write k : must_write (key_write k).
Proof. unfold key_write. apply must_bind1. intros f d a f' E. discriminate. Qed.
Lemma must_put db n o : must_write (put_obj db n o).
Proof.
  unfold put_obj. destruct (existsb _ n); [apply must_lift_err; discriminate|].
  cbv zeta. do 5 (apply must_bind2; [mono|intros]). apply must_bind1, must_key_write.
Qed.
Lemma must_tree_close db t l s : must_write (tree_close db t l s).
Proof. unfold tree_close. apply must_bind2; [mono|intros]. apply must_bind1, must_put. Qed.
Lemma must_tree_write db t : must_write (tree_write db t).
Proof.
  unfold tree_write. cbv zeta. apply must_bind2; [mono|intros [[t' cols] ev]]. apply must_bind1, must_tree_close.
Qed.
Lemma must_write_one db p : must_write (write_one db p).
Proof. unfold write_one. apply must_bind2; [mono|intros]. apply must_bind1, must_tree_write. Qed.

Lemma f_set_io_same f io : f_io f = io -> f_set_io f io = f.
Proof. intros <-. now destruct f. Qed.

Theorem read_only {A} (m : FM A) f d : fprog m -> must_write m -> f_io f = IORead d ->
  f_disk (fst (m f)) = d /\ (forall a, snd (m f) <> Ok a) /\
  (forall l a, snd (m (f_set_io f (IOWrite l))) = Ok a -> snd (m f) = Err EReadOnly).
Proof.
  intros FP MW E. rewrite <- (f_set_io_same f (IORead d) E).
  assert (mono m) as M.
  { clear -FP. induction FP; mono; auto. specialize (H f (f_io f)).
    rewrite f_set_io_same in H by reflexivity. now rewrite H. }
  split; [|split].
  - specialize (M (f_set_io f (IORead d))). cbn [f_set_io f_io io_ext] in M. unfold f_disk. now rewrite M.
  - intros a H. destruct (m (f_set_io f (IORead d))) as [f' r] eqn:Em. cbn [snd] in H. subst r. now apply MW in Em.
  - intros l a H. change (f_set_io (f_set_io f (IORead d)) (IOWrite l)) with (f_set_io f (IOWrite l)) in H. destruct (fprog_read_only m FP f d l) as [H'|(f' & H1 & H2)]; [exact H'|]. exfalso.
    rewrite H1 in H. cbn [snd] in H. rewrite H in H2. now apply MW in H2.
Qed.
