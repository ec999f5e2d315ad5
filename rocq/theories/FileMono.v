(** Whatever the outcome, operations on a file only add writes, and only to files
    opened for writing. *)
From Verif Require Export FileOps.

Definition io_ext (io io' : fio) : Prop :=
  match io with
  | IOWrite log => exists l, io' = IOWrite (log ++ l)
  | _ => io' = io
  end.
Lemma io_ext_refl io : io_ext io io.
Proof. destruct io; cbn; auto. exists []. now rewrite app_nil_r. Qed.
Lemma io_ext_trans a b c : io_ext a b -> io_ext b c -> io_ext a c.
Proof.
  destruct a; cbn; [intros ->; auto|intros ->; auto|].
  intros (l & ->). cbn. intros (l' & ->). exists (l ++ l'). now rewrite app_assoc.
Qed.

Definition mono {A} (m : FM A) : Prop := forall f, io_ext (f_io f) (f_io (fst (m f))).

Lemma mono_bind {A B} (m : FM A) (k : A -> FM B) : mono m -> (forall a, mono (k a)) -> mono (fbind m k).
Proof.
  intros H1 H2 f. specialize (H1 f). unfold fbind. destruct (m f) as [f1 [a| | | |]]; cbn [fst] in *; auto.
  eapply io_ext_trans; [exact H1|apply H2].
Qed.
Lemma mono_ret {A} (a : A) : mono (fret a). Proof. intros f. apply io_ext_refl. Qed.
Lemma mono_lift {A} (r : res A) : mono (flift r). Proof. intros f. apply io_ext_refl. Qed.
Lemma mono_gets {A} (g : file -> A) : mono (fgets g). Proof. intros f. apply io_ext_refl. Qed.
Lemma mono_modify g : (forall f, f_io (g f) = f_io f) -> mono (fmodify g).
Proof. intros H f. cbn. rewrite H. apply io_ext_refl. Qed.
Lemma mono_if {A} (b : bool) (m n : FM A) : mono m -> mono n -> mono (if b then m else n).
Proof. destruct b; auto. Qed.
Lemma mono_fwrite p b : mono (fwrite p b).
Proof. intros f. unfold fwrite. destruct (f_io f) eqn:E; cbn [fst f_set_io f_io]; rewrite ?E; cbn; eauto. Qed.
Lemma mono_fwriter : mono fwriter.
Proof. intros f. unfold fwriter. destruct (f_io f) eqn:E; cbn [fst]; rewrite ?E; cbn; eauto. exists []. now rewrite app_nil_r. Qed.
Lemma mono_fiter {A} (g : A -> FM unit) l : (forall a, mono (g a)) -> mono (fiter g l).
Proof. intros H. induction l; cbn [fiter]; [apply mono_ret|]. apply mono_bind; auto. Qed.

Create HintDb mono.
#[export] Hint Resolve mono_ret mono_lift mono_gets mono_fwrite mono_fwriter : mono.
Ltac mono :=
  repeat match goal with
  | |- mono (fbind _ _) => apply mono_bind; [|intros]
  | |- mono (if _ then _ else _) => apply mono_if
  | |- mono (fmodify _) => apply mono_modify; intros; try reflexivity
  | |- mono (match ?x with _ => _ end) => destruct x
  | |- mono (let _ := _ in _) => cbv zeta
  | |- mono (fiter _ _) => apply mono_fiter; intros
  | |- mono _ => solve [auto with mono]
  end.

Lemma mono_set_end p : mono (set_end p). Proof. unfold set_end. mono. Qed.
#[export] Hint Resolve mono_set_end : mono.
Lemma mono_key_new n t c o : mono (key_new n t c o). Proof. unfold key_new. mono. Qed.
Lemma mono_key_from kl n t c cy b : mono (key_from kl n t c cy b). Proof. unfold key_from. mono. Qed.
Lemma mono_key_write k : mono (key_write k). Proof. unfold key_write. mono. Qed.
#[export] Hint Resolve mono_key_new mono_key_from mono_key_write : mono.
Lemma mono_key_from_buffer n t c cy b : mono (key_from_buffer n t c cy b). Proof. unfold key_from_buffer. mono. Qed.
Lemma mono_key_from_object n t c m : mono (key_from_object n t c m). Proof. unfold key_from_object. mono. Qed.
#[export] Hint Resolve mono_key_from_buffer mono_key_from_object : mono.
Lemma mono_add_sinfo si : mono (add_sinfo si).
Proof. unfold add_sinfo. mono. destruct (existsb _ _); reflexivity. Qed.
#[export] Hint Resolve mono_add_sinfo : mono.
Lemma mono_put db n o : mono (put_obj db n o). Proof. unfold put_obj. mono. Qed.
Lemma mono_save_keys d : mono (save_keys d). Proof. unfold save_keys. mono. Qed.
Lemma mono_write_dir d : mono (write_dir d). Proof. unfold write_dir. mono. Qed.
Lemma mono_write_fhdr : mono write_fhdr. Proof. unfold write_fhdr. mono. Qed.
#[export] Hint Resolve mono_put mono_save_keys mono_write_dir mono_write_fhdr : mono.
Lemma mono_find_deep db : mono (find_deep db). Proof. unfold find_deep, add_dep. mono. Qed.
#[export] Hint Resolve mono_find_deep : mono.
Lemma mono_write_sinfos db : mono (write_sinfos db). Proof. unfold write_sinfos. mono. Qed.
Lemma mono_write_free : mono write_free. Proof. unfold write_free. mono. Qed.
#[export] Hint Resolve mono_write_sinfos mono_write_free : mono.
Lemma mono_close db : mono (close db). Proof. unfold close. mono. Qed.
#[export] Hint Resolve mono_close : mono.

Lemma mono_disk {A} (m : FM A) f f' r : mono m -> m f = (f', r) -> zlen (f_disk f) <= zlen (f_disk f').
Proof.
  intros H E. specialize (H f). rewrite E in H. cbn [fst] in H. unfold f_disk.
  destruct (f_io f); cbn in H; [rewrite H; lia|rewrite H; lia|].
  destruct H as (l & ->). apply disk_of_len.
Qed.
