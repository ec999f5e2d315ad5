(** What is refused, and that it changes nothing. *)
From Verif Require Import Base Bytes RBuf WBuf Codec Values Key Header Obj TreeObj File FileOps Column ColRead TreeWrite TreeSession Spec SpecTree.

(** Until the tree is put, the directory does not change. *)
Definition keeps_dir {A} (m : FM A) : Prop := forall f, f_dir (fst (m f)) = f_dir f.
Lemma kd_ret {A} (a : A) : keeps_dir (fret a). Proof. now intros f. Qed.
Lemma kd_lift {A} (r : res A) : keeps_dir (flift r). Proof. now intros f. Qed.
Lemma kd_gets {A} (g : file -> A) : keeps_dir (fgets g). Proof. now intros f. Qed.
Lemma kd_bind {A B} (m : FM A) (k : A -> FM B) : keeps_dir m -> (forall a, keeps_dir (k a)) -> keeps_dir (fbind m k).
Proof. intros H K f. unfold fbind. specialize (H f). destruct (m f) as [f1 [a| | | |]]; cbn [fst] in *; try exact H. now rewrite K. Qed.
Lemma kd_if {A} (b : bool) (m n : FM A) : keeps_dir m -> keeps_dir n -> keeps_dir (if b then m else n).
Proof. now destruct b. Qed.
Lemma kd_modify g : (forall f, f_dir (g f) = f_dir f) -> keeps_dir (fmodify g). Proof. intros H f. apply H. Qed.
Lemma kd_fwrite p b : keeps_dir (fwrite p b). Proof. intros f. unfold fwrite. now destruct (f_io f). Qed.
Lemma kd_fwriter : keeps_dir fwriter. Proof. intros f. unfold fwriter. now destruct (f_io f). Qed.
Lemma kd_fiter {A} (g : A -> FM unit) l : (forall a, keeps_dir (g a)) -> keeps_dir (fiter g l).
Proof. intros H. induction l as [|a l IH]; [apply kd_ret|]. cbn [fiter]. apply kd_bind; [apply H|intros _; exact IH]. Qed.
Create HintDb kd discriminated.
Global Hint Resolve kd_ret kd_lift kd_gets kd_fwrite kd_fwriter kd_bind kd_if kd_fiter : kd.
Ltac kd := repeat match goal with
  | |- forall _, _ => intro
  | |- keeps_dir (fmodify _) => apply kd_modify; intro; reflexivity
  | |- keeps_dir (match ?x with _ => _ end) => destruct x
  | |- keeps_dir (let _ := _ in _) => cbv zeta
  | |- keeps_dir (fbind _ _) => apply kd_bind
  | |- keeps_dir _ => solve [auto 2 with kd]
  end.
Lemma kd_set_end p : keeps_dir (set_end p). Proof. unfold set_end. kd. Qed.
Global Hint Resolve kd_set_end : kd.
Lemma kd_key_new n t c o : keeps_dir (key_new n t c o). Proof. unfold key_new. kd. Qed.
Lemma kd_key_from kl n t c cy b : keeps_dir (key_from kl n t c cy b). Proof. unfold key_from. kd. Qed.
Lemma kd_key_write k : keeps_dir (key_write k). Proof. unfold key_write. kd. Qed.
Global Hint Resolve kd_key_new kd_key_from kd_key_write : kd.
Lemma kd_key_from_buffer n t c cy b : keeps_dir (key_from_buffer n t c cy b). Proof. unfold key_from_buffer. kd. Qed.
Global Hint Resolve kd_key_from_buffer : kd.
Lemma kd_basket_write wb : keeps_dir (basket_write wb). Proof. unfold basket_write. kd. Qed.
Global Hint Resolve kd_basket_write : kd.
Lemma kd_create_new_basket tn c : keeps_dir (create_new_basket tn c). Proof. unfold create_new_basket. kd. Qed.
Lemma kd_flush c : keeps_dir (flush c). Proof. unfold flush. kd. Qed.
Global Hint Resolve kd_create_new_basket kd_flush : kd.
Lemma kd_write_entry tn c wb v : keeps_dir (write_entry tn c wb v). Proof. unfold write_entry. kd. Qed.
Global Hint Resolve kd_write_entry : kd.
Lemma kd_wcol_write tn c : keeps_dir (wcol_write tn c). Proof. unfold wcol_write. kd. Qed.
Global Hint Resolve kd_wcol_write : kd.
Lemma kd_write_row tn n l : forall t, keeps_dir (write_row tn n l t).
Proof. induction l as [|[c b] l IH]; intros t; cbn [write_row]; kd. Qed.
Global Hint Resolve kd_write_row : kd.
Lemma kd_write_rows fuel tn n : forall t l ev, keeps_dir (write_rows fuel tn n t l ev).
Proof. induction fuel as [|fuel IH]; intros t l ev; cbn [write_rows]; kd. Qed.
Lemma kd_flush_all l : keeps_dir (flush_all l).
Proof. induction l as [|c l IH]; cbn [flush_all]; kd. Qed.
Global Hint Resolve kd_write_rows kd_flush_all : kd.

Lemma put_slash db n o f : In 47 n -> put_obj db n o f = (f, Err ENameSlash).
Proof.
  intros I. unfold put_obj. replace (existsb (Z.eqb 47) n) with true; [reflexivity|].
  symmetry. apply existsb_exists. exists 47. now rewrite Z.eqb_refl.
Qed.
Lemma scan_cycle_clash n c ks : (exists k, In k ks /\ k_name k = n /\ k_class k <> c) -> forall cy, scan_cycle n c ks cy = Err EKeyClassMismatch.
Proof.
  intros (k & I & N & C). induction ks as [|k0 ks IH]; [destruct I|]. intros cy. cbn [scan_cycle].
  destruct I as [->|I].
  - subst n. rewrite (proj2 (beqb_eq _ _) eq_refl). cbn [negb]. destruct (beqb (k_class k) c) eqn:E; [now apply beqb_eq in E|reflexivity].
  - destruct (negb (beqb (k_name k0) n)); [now apply IH|]. destruct (negb _); [reflexivity|now apply IH].
Qed.
Lemma put_clash db n o f k : n <> [] -> ~ In 47 n -> In k (d_keys (f_dir f)) -> k_name k = n -> k_class k <> o_cls o ->
  put_obj db n o f = (f, Err EKeyClassMismatch).
Proof.
  intros NE NS I N C. unfold put_obj. replace (existsb (Z.eqb 47) n) with false.
  2:{ symmetry. apply not_true_iff_false. intros X. apply existsb_exists in X as (x & Ix & X). apply Z.eqb_eq in X. subst x. auto. }
  destruct n as [|c0 n]; [congruence|]. unfold fbind at 1, fgets at 1. unfold fbind at 1.
  rewrite (scan_cycle_clash (c0 :: n) (o_cls o) (d_keys (f_dir f))) by (exists k; auto). reflexivity.
Qed.

Lemma build_tree ops : forall t t', build t ops = Ok t' -> wt_tree t' = wt_tree t.
Proof.
  induction ops as [|o ops IH]; intros t t' H; cbn [build] in H; [now injection H as <-|].
  destruct (build_step t o) as [t1| | | |] eqn:E; try discriminate. cbn [rbind] in H. rewrite (IH _ _ H).
  destruct o as [n ty' it|]; cbn [build_step] in E; [|now injection E as <-].
  unfold new_branch in E. destruct (wcol_new n ty' it) as [[c sis]| | | |]; try discriminate. cbn [rbind] in E.
  destruct (match wt_sinfos t with Some _ => _ | None => _ end); try discriminate. now injection E as <-.
Qed.
Lemma write_rows_named fuel tn n : forall t l ev f f' t' l' ev',
  write_rows fuel tn n t l ev f = (f', Ok (t', l', ev')) -> t_named t' = t_named t.
Proof.
  induction fuel as [|fuel IH]; intros t l ev f f' t' l' ev' H; cbn [write_rows] in H; [discriminate|].
  unfold fbind at 1 in H. destruct (write_row tn n l 0 f) as [f1 [[[cols tot] e]| | | |]]; try discriminate.
  destruct (forallb snd cols); [|now apply IH in H].
  apply (f_equal snd) in H. cbn [snd fret] in H. injection H as <- _ _. reflexivity.
Qed.
Lemma tree_write_slash db w f : In 47 (n_name (t_named (wt_tree w))) ->
  f_dir (fst (tree_write db w f)) = f_dir f /\ (forall e, snd (tree_write db w f) <> Ok e).
Proof.
  intros I. unfold tree_write. cbv zeta.
  pose proof (kd_write_rows (rows_fuel (wt_cols w)) (n_name (t_named (wt_tree w))) (wt_cbs w) (wt_tree w)
    (map (fun c => (c, false)) (wt_cols w)) (wt_events w) f) as K.
  unfold tree_close, fbind, fret.
  destruct (write_rows _ _ _ _ _ _ f) as [f1 [[[t' cols] ev]| | | |]] eqn:R; try (now split).
  apply write_rows_named in R. cbn [fst] in K. rewrite <- R in I.
  pose proof (kd_flush_all (map fst cols) f1) as K2.
  destruct (flush_all (map fst cols) f1) as [f2 [cs| | | |]]; cbn [fst snd] in *; try (split; [congruence|now intros]).
  rewrite put_slash by exact I. cbn [fst snd]. split; [congruence|intros e X; discriminate X].
Qed.
Lemma tree_slash db p f : In 47 (tp_name p) ->
  f_dir (fst (write_one db p f)) = f_dir f /\ (forall e, snd (write_one db p f) <> Ok e).
Proof.
  intros I. unfold write_one, fbind, fret, flift.
  destruct (build (wtree_new (tp_name p)) (tp_ops p)) as [w| | | |] eqn:B; try (now split).
  apply build_tree in B.
  destruct (tree_write_slash db w f) as [H1 H2]; [now rewrite B|].
  destruct (tree_write db w f) as [f1 [w'| | | |]]; cbn [fst snd] in *; try (now split). now destruct (H2 w').
Qed.

Lemma open_io d f : open_file d = Ok f -> f_io f = IORead d.
Proof.
  unfold open_file. intros H.
  repeat match type of H with
         | rbind ?x _ = Ok _ => destruct x; cbn [rbind] in H; try discriminate
         end.
  now injection H as <-.
Qed.
