(** Facts about programs that use several files and handles. *)
From Verif Require Import Base FileMono World SpecTree LazyFacts SpecWorld.

Lemma upd_p_same {A} (m : bytes -> A) p a : upd_p m p a p = a.
Proof. unfold upd_p. now rewrite beqb_refl. Qed.
Lemma upd_p_other {A} (m : bytes -> A) p q a : p <> q -> upd_p m p a q = m q.
Proof. unfold upd_p. intros H. destruct (beqb p q) eqn:E; [apply beqb_eq in E; contradiction|reflexivity]. Qed.
Lemma upd_n_same {A} (m : nat -> A) n a : upd_n m n a n = a.
Proof. unfold upd_n. now rewrite Nat.eqb_refl. Qed.
Lemma upd_n_other {A} (m : nat -> A) n k a : n <> k -> upd_n m n a k = m k.
Proof. unfold upd_n. intros H. destruct (Nat.eqb_spec n k); [contradiction|reflexivity]. Qed.

(** ** Parts of a program that do not concern each other *)
Section Parts.
Variables (mine : nat -> bool) (used : bytes -> Prop).

(** [w] is the world of the program, [v] that of the part alone. *)
Record alike (w v : world) : Prop := {
  al_at : forall p, used p -> w_at w p = w_at v p;
  al_next : forall p, used p -> w_next w p = w_next v p;
  al_data : forall p g, used p -> w_data w p g = w_data v p g;
  al_h : forall i, mine i = true -> w_h w i = w_h v i }.

Lemma alike_content w v p : alike w v -> used p -> content w p = content v p.
Proof. intros A U. unfold content. rewrite (al_at _ _ A p U). destruct (w_at v p); [|reflexivity]. now rewrite (al_data _ _ A p _ U). Qed.
Lemma alike_free w v i : alike w v -> mine i = true -> free w i = free v i.
Proof. intros A M. unfold free. now rewrite (al_h _ _ A i M). Qed.

Lemma alike_set_h w v i h : alike w v -> alike (set_h w i h) (set_h v i h).
Proof.
  intros [A1 A2 A3 A4]. constructor; cbn [set_h w_at w_next w_data w_h]; auto. intros k K. unfold upd_n. destruct (Nat.eqb i k); auto.
Qed.
Lemma alike_set_h_l w v i h : mine i = false -> alike w v -> alike (set_h w i h) v.
Proof.
  intros M [A1 A2 A3 A4]. constructor; cbn [set_h w_at w_next w_data w_h]; auto. intros k K. rewrite upd_n_other; [auto|congruence].
Qed.
Lemma alike_set_data w v p g d d' : alike w v -> (used p -> d = d') -> alike (set_data w p g d) (set_data v p g d').
Proof.
  intros [A1 A2 A3 A4] E. constructor; cbn [set_data w_at w_next w_data w_h]; auto. intros q k U. unfold upd_p.
  destruct (beqb p q) eqn:B; [|auto]. apply beqb_eq in B. subst q. unfold upd_n. destruct (Nat.eqb g k); auto.
Qed.
Lemma alike_set_data_l w v p g d : ~ used p -> alike w v -> alike (set_data w p g d) v.
Proof.
  intros N [A1 A2 A3 A4]. constructor; cbn [set_data w_at w_next w_data w_h]; auto. intros q k U. rewrite upd_p_other; [auto|]. intros ->. contradiction.
Qed.
Lemma alike_sync w v p g f n m : used p -> alike w v -> alike (sync w p g f n m) (sync v p g f n m).
Proof. intros U A. unfold sync. apply alike_set_data; [exact A|]. intros _. now rewrite (al_data _ _ A p g U). Qed.

Lemma parted_set_h w i h : parted_handles mine used w ->
  (forall x, h = Some x -> (mine i = true -> used (handle_path x)) /\ (mine i = false -> is_writer x -> ~ used (handle_path x))) ->
  parted_handles mine used (set_h w i h).
Proof.
  intros H X k x. cbn [set_h w_h]. unfold upd_n. destruct (Nat.eqb_spec i k) as [<-|_]; [apply X|apply H].
Qed.

(** A call of the part, in both worlds. *)
Lemma step_mine w v o : alike w v -> parted_handles mine used w -> mine (o_id o) = true ->
  (forall p, names_path o p -> used p) -> (forall j, made_from o j -> mine j = true) ->
  snd (step w o) = snd (step v o) /\ alike (fst (step w o)) (fst (step v o)) /\ parted_handles mine used (fst (step w o)).
Proof.
  intros A H M U J. destruct o as [i a]. cbn [o_id] in M.
  assert (HP : forall h, w_h w i = Some h -> used (handle_path h)) by (intros h E; now apply (H i h E)).
  assert (OW : forall B (m : FM B) say, snd (on_writer w i m say) = snd (on_writer v i m say) /\ alike (fst (on_writer w i m say)) (fst (on_writer v i m say)) /\
    parted_handles mine used (fst (on_writer w i m say))).
  { intros B m say. unfold on_writer. rewrite <- (al_h _ _ A i M). destruct (w_h w i) as [[p g f n|p f|p sis t|p it]|]; auto.
    destruct (m f) as [f' r]. specialize (HP _ eq_refl). cbn [handle_path] in HP. cbn [fst snd]. split; [reflexivity|]. split.
    - apply alike_set_h, alike_sync; assumption.
    - apply parted_set_h; [exact H|]. intros x E. injection E as <-. split; [auto|congruence]. }
  assert (MK : forall B (r : res B) h, (forall b, used (handle_path (h b))) -> snd (make w i r h) = snd (make v i r h) /\ alike (fst (make w i r h)) (fst (make v i r h)) /\
    parted_handles mine used (fst (make w i r h))).
  { intros B r h HU. unfold make. destruct r; cbn [fst snd]; auto. split; [reflexivity|]. split; [now apply alike_set_h|].
    apply parted_set_h; [exact H|]. intros x E. injection E as <-. split; [auto|congruence]. }
  unfold names_path, made_from in U, J. destruct a as [p|t| | |p|j name|j name t| |p]; cbn [step o_act o_id] in U, J |- *.
  - specialize (U p eq_refl). rewrite (alike_free _ _ i A M). destruct (negb (free v i)); [auto|].
    rewrite <- (al_at _ _ A p U), <- (al_next _ _ A p U). set (g := match w_at w p with Some g => g | None => w_next w p end).
    set (w1 := mkW _ _ _ (w_h w)). set (v1 := mkW _ _ _ (w_h v)).
    assert (A1 : alike w1 v1).
    { destruct A as [A1 A2 A3 A4]. constructor; unfold w1, v1; cbn [w_at w_next w_data w_h]; auto.
      - intros q UQ. unfold upd_p. destruct (beqb p q); auto.
      - intros q UQ. unfold upd_p. destruct (beqb p q); auto.
      - intros q k UQ. unfold upd_p. destruct (beqb p q) eqn:B; auto. unfold upd_n. destruct (Nat.eqb g k); auto. }
    assert (H1 : parted_handles mine used w1) by exact H.
    destruct (create p) as [f r]. destruct r; cbn [fst snd]; (split; [reflexivity|]); (split; [|]).
    + apply alike_set_h, alike_sync; assumption.
    + apply parted_set_h; [exact H1|]. intros x E. injection E as <-. split; [auto|congruence].
    + apply alike_sync; assumption.
    + exact H1.
    + apply alike_sync; assumption.
    + exact H1.
    + apply alike_sync; assumption.
    + exact H1.
    + apply alike_sync; assumption.
    + exact H1.
  - apply OW.
  - apply OW.
  - rewrite <- (al_h _ _ A i M). destruct (w_h w i) as [[p g f n|p f|p sis t|p it]|] eqn:E; cbn [fst snd]; auto.
    + split; [reflexivity|]. specialize (HP _ eq_refl). cbn [handle_path] in HP. split; [apply alike_set_h, alike_sync; assumption|]. apply parted_set_h; [exact H|discriminate].
    + split; [reflexivity|]. split; [apply alike_set_h; assumption|]. apply parted_set_h; [exact H|discriminate].
    + split; [reflexivity|]. split; [apply alike_set_h; assumption|]. apply parted_set_h; [exact H|discriminate].
    + split; [reflexivity|]. split; [apply alike_set_h; assumption|]. apply parted_set_h; [exact H|discriminate].
  - specialize (U p eq_refl). rewrite (alike_free _ _ i A M). destruct (negb (free v i)); [auto|]. rewrite (alike_content w v p A U). apply MK. intros b. exact U.
  - specialize (J j eq_refl). rewrite (alike_free _ _ i A M). destruct (negb (free v i)); [auto|]. rewrite <- (al_h _ _ A j J).
    destruct (w_h w j) as [[p g f n|p f|p sis t|p it]|] eqn:E; auto; assert (UP : used p) by (apply (H _ _ E); exact J).
    + apply MK. intros b. exact UP.
    + rewrite (alike_content w v p A UP). apply MK. intros b. exact UP.
  - specialize (J j eq_refl). rewrite (alike_free _ _ i A M). destruct (negb (free v i)); [auto|]. rewrite <- (al_h _ _ A j J).
    destruct (w_h w j) as [[p g f n|p f|p sis r|p it]|] eqn:E; auto; assert (UP : used p) by (apply (H _ _ E); exact J).
    destruct (tree_branch r name); [|auto]. apply MK. intros b'. exact UP.
  - rewrite <- (al_h _ _ A i M). destruct (w_h w i) as [[p g f n|p f|p sis r|p it]|] eqn:E; auto. specialize (HP _ eq_refl). cbn [handle_path] in HP.
    rewrite (alike_content w v p A HP). destruct (next_at (content v p) it) as [[x it']|?| | |]; cbn [fst snd]; auto. split; [reflexivity|].
    split; [apply alike_set_h; assumption|]. apply parted_set_h; [exact H|]. intros x0 X. injection X as <-. split; [auto|congruence].
  - specialize (U p eq_refl). cbn [fst snd]. split; [reflexivity|]. split; [|exact H]. destruct A as [A1 A2 A3 A4]. constructor; cbn [w_at w_next w_data w_h]; auto.
    intros q UQ. unfold upd_p. destruct (beqb p q); auto.
Qed.

(** A call of the rest. *)
Lemma step_other w v o : alike w v -> parted_handles mine used w -> mine (o_id o) = false -> (forall p, replaces o p -> ~ used p) ->
  alike (fst (step w o)) v /\ parted_handles mine used (fst (step w o)).
Proof.
  intros A H M U. destruct o as [i a]. cbn [o_id] in M.
  assert (OW : forall B (m : FM B) say, alike (fst (on_writer w i m say)) v /\ parted_handles mine used (fst (on_writer w i m say))).
  { intros B m say. unfold on_writer. destruct (w_h w i) as [[p g f n|p f|p sis t|p it]|] eqn:E; auto.
    destruct (m f) as [f' r]. assert (NU : ~ used p) by (apply (H _ _ E); [exact M|exact I]). cbn [fst snd]. split.
    - apply alike_set_h_l; [exact M|]. now apply alike_set_data_l.
    - apply parted_set_h; [exact H|]. intros x X. injection X as <-. split; [congruence|auto]. }
  assert (MK : forall B (r : res B) h, (forall b, ~ is_writer (h b)) -> alike (fst (make w i r h)) v /\ parted_handles mine used (fst (make w i r h))).
  { intros B r h HU. unfold make. destruct r; cbn [fst snd]; auto. split; [now apply alike_set_h_l|].
    apply parted_set_h; [exact H|]. intros x E. injection E as <-. split; [congruence|]. intros _ W. now apply HU in W. }
  unfold replaces in U. destruct a as [p|t| | |p|j name|j name t| |p]; cbn [step o_act o_id] in U |- *.
  - specialize (U p eq_refl). destruct (negb (free w i)); [auto|].
    set (g := match w_at w p with Some g => g | None => w_next w p end). set (w1 := mkW _ _ _ (w_h w)).
    assert (A1 : alike w1 v).
    { destruct A as [A1 A2 A3 A4]. assert (N : forall q, used q -> p <> q) by (intros q UQ ->; contradiction).
      constructor; unfold w1; cbn [w_at w_next w_data w_h]; auto; intros q; intros; rewrite upd_p_other; auto. }
    assert (H1 : parted_handles mine used w1) by exact H.
    destruct (create p) as [f r]. destruct r; cbn [fst snd]; (split; [|]).
    + apply alike_set_h_l; [exact M|]. now apply alike_set_data_l.
    + apply parted_set_h; [exact H1|]. intros x E. injection E as <-. split; [congruence|auto].
    + now apply alike_set_data_l.
    + exact H1.
    + now apply alike_set_data_l.
    + exact H1.
    + now apply alike_set_data_l.
    + exact H1.
    + now apply alike_set_data_l.
    + exact H1.
  - apply OW.
  - apply OW.
  - destruct (w_h w i) as [[p g f n|p f|p sis t|p it]|] eqn:E; cbn [fst snd]; auto.
    + assert (NU : ~ used p) by (apply (H _ _ E); [exact M|exact I]). split; [apply alike_set_h_l; [exact M|]; now apply alike_set_data_l|]. apply parted_set_h; [exact H|discriminate].
    + split; [now apply alike_set_h_l|]. apply parted_set_h; [exact H|discriminate].
    + split; [now apply alike_set_h_l|]. apply parted_set_h; [exact H|discriminate].
    + split; [now apply alike_set_h_l|]. apply parted_set_h; [exact H|discriminate].
  - destruct (negb (free w i)); [auto|]. apply MK. intros b [].
  - destruct (negb (free w i)); [auto|]. destruct (w_h w j) as [[p g f n|p f|p sis t|p it]|] eqn:E; auto; apply MK; intros b [].
  - destruct (negb (free w i)); [auto|]. destruct (w_h w j) as [[p g f n|p f|p sis r|p it]|] eqn:E; auto.
    destruct (tree_branch r name); [|auto]. apply MK. intros b' [].
  - destruct (w_h w i) as [[p g f n|p f|p sis r|p it]|] eqn:E; auto.
    destruct (next_at (content w p) it) as [[x it']|?| | |]; cbn [fst snd]; auto. split; [now apply alike_set_h_l|]. apply parted_set_h; [exact H|].
    intros x0 X. injection X as <-. split; [congruence|intros _ []].
  - specialize (U p eq_refl). cbn [fst snd]. split; [|exact H]. destruct A as [A1 A2 A3 A4]. constructor; cbn [w_at w_next w_data w_h]; auto.
    intros q UQ. rewrite upd_p_other; [auto|]. intros ->. contradiction.
Qed.

Lemma run_parts ops : forall w v, alike w v -> parted_handles mine used w -> uses_only mine used ops -> leaves_alone mine used ops ->
  answers_to mine ops (snd (run w ops)) = snd (run v (calls_of mine ops)) /\
  alike (fst (run w ops)) (fst (run v (calls_of mine ops))) /\ parted_handles mine used (fst (run w ops)).
Proof.
  induction ops as [|o ops IH]; intros w v A H UO LA; [cbn; auto|].
  assert (UO' : uses_only mine used ops) by (intros x X; apply UO; now right). assert (LA' : leaves_alone mine used ops) by (intros x X; apply LA; now right).
  unfold calls_of. cbn [run filter]. destruct (mine (o_id o)) eqn:M.
  - destruct (UO o (or_introl eq_refl) M) as (U1 & U2). destruct (step_mine w v o A H M U1 U2) as (S1 & S2 & S3).
    cbn [run]. destruct (step w o) as [w1 a], (step v o) as [v1 b]. cbn [fst snd] in *. subst b.
    destruct (IH w1 v1 S2 S3 UO' LA') as (I1 & I2 & I3). unfold calls_of in *.
    destruct (run w1 ops) as [w2 l], (run v1 (filter (fun o => mine (o_id o)) ops)) as [v2 m]. cbn [fst snd] in *.
    split; [|auto]. unfold answers_to in *. cbn [combine filter fst]. rewrite M. cbn [map snd]. now rewrite I1.
  - destruct (step_other w v o A H M (LA o (or_introl eq_refl) M)) as (S2 & S3).
    destruct (step w o) as [w1 a]. cbn [fst snd] in *.
    destruct (IH w1 v S2 S3 UO' LA') as (I1 & I2 & I3). unfold calls_of in *.
    destruct (run w1 ops) as [w2 l]. cbn [fst snd] in *.
    split; [|auto]. unfold answers_to in *. cbn [combine filter fst]. rewrite M. exact I1.
Qed.
End Parts.
Lemma alike_refl mine used w : alike mine used w w.
Proof. constructor; auto. Qed.

(** ** Writing a file *)
Lemma run_app a b : forall w, run w (a ++ b) = (fst (run (fst (run w a)) b), snd (run w a) ++ snd (run (fst (run w a)) b)).
Proof.
  induction a as [|o a IH]; intros w; cbn [app run].
  - cbn [fst snd app]. now destruct (run w b).
  - destruct (step w o) as [w1 x]. rewrite IH. destruct (run w1 a) as [w2 l]. cbn [fst snd app]. reflexivity.
Qed.

Lemma apply_writes_app d a b : apply_writes d (a ++ b) = apply_writes (apply_writes d a) b.
Proof. unfold apply_writes. now rewrite fold_left_app. Qed.
Lemma flushed_le l : (flushed l <= length l)%nat.
Proof. unfold flushed. destruct (rev l) as [|[? b] ?]; [lia|]. destruct (_ <? _); lia. Qed.
Lemma flushed_ge l : (length l - 1 <= flushed l)%nat.
Proof.
  unfold flushed. destruct (rev l) as [|[? b] ?] eqn:E; [|destruct (_ <? _); lia].
  apply (f_equal (@length _)) in E. rewrite rev_length in E. cbn in E. lia.
Qed.
Lemma flushed_mono l m : (flushed l <= flushed (l ++ m))%nat.
Proof.
  destruct m as [|x m]; [rewrite app_nil_r; lia|]. pose proof (flushed_le l). pose proof (flushed_ge (l ++ x :: m)) as G. rewrite app_length in G. cbn [length] in G. lia.
Qed.

(** Handle [i] writes to the file at [p], and nobody else has. *)
Definition writes_at (w : world) (i : nat) (p : bytes) (g : nat) (f : file) : Prop :=
  w_at w p = Some g /\ w_h w i = Some (HWriter p g f (flushed (log_of f))) /\
  w_data w p g = apply_writes [] (firstn (flushed (log_of f)) (log_of f)) /\ f_io f = IOWrite (log_of f).

Lemma sync_data w p g f l n m : (n <= m)%nat -> (m <= length l)%nat -> log_of f = l -> w_data w p g = apply_writes [] (firstn n l) ->
  w_data (sync w p g f n m) p g = apply_writes [] (firstn m l).
Proof.
  intros H1 H2 L D. unfold sync, set_data. cbn [w_data]. rewrite upd_p_same, upd_n_same, D, L, <- apply_writes_app. f_equal.
  replace m with (n + (m - n))%nat at 2 by lia. rewrite <- (firstn_skipn n l) at 3. rewrite firstn_app, firstn_firstn, firstn_length.
  rewrite Nat.min_r by lia. f_equal. f_equal. lia.
Qed.

Lemma on_writer_ok {A} w i p g f (m : FM A) say f' r : mono m -> writes_at w i p g f -> m f = (f', r) ->
  snd (on_writer w i m say) = (x <-? r ;; Ok (say x)) /\ writes_at (fst (on_writer w i m say)) i p g f'.
Proof.
  intros MO (W1 & W2 & W3 & W4) E. unfold on_writer. rewrite W2, E. cbn [fst snd]. split; [reflexivity|].
  pose proof (MO f) as X. rewrite E in X. cbn [fst] in X. rewrite W4 in X. destruct X as (l & X).
  assert (L : log_of f' = log_of f ++ l) by (unfold log_of at 1; now rewrite X).
  split; [exact W1|]. split; [cbn [set_h w_h]; now rewrite upd_n_same|]. split; [|rewrite X; unfold log_of at 2; now rewrite X].
  change (w_data (sync w p g f' (flushed (log_of f)) (flushed (log_of f'))) p g = apply_writes [] (firstn (flushed (log_of f')) (log_of f'))).
  apply (sync_data w p g f' (log_of f')); [rewrite L; apply flushed_mono|apply flushed_le|reflexivity|].
  rewrite W3, L, firstn_app. replace (flushed (log_of f) - length (log_of f))%nat with 0%nat by (pose proof (flushed_le (log_of f)); lia). now rewrite app_nil_r.
Qed.

Lemma writes_trees ts : forall w i p g f f' es, writes_at w i p g f -> write_trees real_db (map calls ts) f = (f', Ok es) ->
  snd (run w (map (fun t => mkOp i (AWrite (calls t))) ts)) = map (fun e => Ok (Heard e)) es /\
  writes_at (fst (run w (map (fun t => mkOp i (AWrite (calls t))) ts))) i p g f'.
Proof.
  induction ts as [|t ts IH]; intros w i p g f f' es W H; cbn [map write_trees] in H.
  - injection H as <- <-. cbn. auto.
  - apply fbind_inv in H as (f1 & e & E & H). apply fbind_inv in H as (f2 & es1 & E1 & H). injection H as <- <-.
    cbn [map run step o_act o_id]. destruct (on_writer_ok w i p g f (write_one real_db (calls t)) Heard f1 (Ok e) (mono_write_one real_db _) W E) as (S1 & S2).
    destruct (on_writer w i (write_one real_db (calls t)) Heard) as [w1 a]. cbn [fst snd rbind] in *. subst a.
    destruct (IH w1 i p g f1 f2 es1 S2 E1) as (R1 & R2). destruct (run w1 _) as [w2 l]. cbn [fst snd] in *. now subst l.
Qed.

Lemma mono_create_body : mono create_body. Proof. unfold create_body. mono. Qed.

Lemma create_ok w i p f : create p = (f, Ok tt) -> w_h w i = None ->
  snd (step w (mkOp i (ACreate p))) = Ok Done /\ exists g, writes_at (fst (step w (mkOp i (ACreate p)))) i p g f.
Proof.
  intros E FR. cbn [step o_act o_id]. unfold free. rewrite FR. cbn [negb]. rewrite E. cbn [fst snd]. split; [reflexivity|].
  set (g := match w_at w p with Some g => g | None => w_next w p end). exists g.
  pose proof (mono_create_body (file_init p)) as X. change (create_body (file_init p)) with (create p) in X. rewrite E in X. cbn [fst] in X. destruct X as (l & X). cbn [app] in X.
  assert (L : log_of f = l) by (unfold log_of; now rewrite X).
  split; [cbn [set_h sync set_data w_at]; apply upd_p_same|]. split; [cbn [set_h w_h]; now rewrite upd_n_same|]. split; [|now rewrite L].
  match goal with |- context [sync ?w1 p g f 0 ?k] => set (ww := w1) end.
  change (w_data (sync ww p g f 0 (flushed (log_of f))) p g = apply_writes [] (firstn (flushed (log_of f)) (log_of f))).
  apply (sync_data ww p g f (log_of f)); [lia|apply flushed_le|reflexivity|]. unfold ww. cbn [w_data firstn]. rewrite upd_p_same, upd_n_same. reflexivity.
Qed.

Lemma writing_ok w i path ts es f : session real_db path (map calls ts) = (f, Ok es) -> w_h w i = None ->
  snd (run w (writing i path ts ++ [mkOp i AClose])) = Ok Done :: map (fun e => Ok (Heard e)) es ++ [Ok Done] /\
  exists g, writes_at (fst (run w (writing i path ts ++ [mkOp i AClose]))) i path g f.
Proof.
  intros S FR. unfold session in S. destruct (create path) as [f0 r] eqn:EC. apply fbind_inv in S as (f1 & u & E1 & S). unfold flift in E1. injection E1 as <- ->.
  destruct u. apply fbind_inv in S as (f2 & es' & E2 & S). apply fbind_inv in S as (f3 & u & E3 & S). injection S as <- <-.
  destruct (create_ok w i path f0 EC FR) as (A1 & g & W1).
  unfold writing. cbn [app run]. destruct (step w (mkOp i (ACreate path))) as [w1 a]. cbn [fst snd] in A1, W1. subst a.
  destruct (writes_trees ts w1 i path g f0 f2 es' W1 E2) as (A2 & W2). rewrite run_app.
  destruct (run w1 (map (fun t => mkOp i (AWrite (calls t))) ts)) as [w2 l]. cbn [fst snd] in A2, W2 |- *. subst l.
  cbn [run step o_act o_id]. destruct (on_writer_ok w2 i path g f2 (close real_db) (fun _ => Done) f3 (Ok u) (mono_close real_db) W2 E3) as (A3 & W3).
  destruct (on_writer w2 i (close real_db) (fun _ => Done)) as [w3 a]. cbn [fst snd rbind] in *. subst a. split; [reflexivity|]. exists g. exact W3.
Qed.

Lemma drop_ok w i p g f : writes_at w i p g f ->
  step w (mkOp i ADrop) = (fst (step w (mkOp i ADrop)), Ok Done) /\ content (fst (step w (mkOp i ADrop))) p = Some (f_disk f) /\
  w_h (fst (step w (mkOp i ADrop))) i = None.
Proof.
  intros (W1 & W2 & W3 & W4). cbn [step o_act o_id]. rewrite W2. cbn [fst snd]. split; [reflexivity|]. split; [|cbn [set_h w_h]; now rewrite upd_n_same].
  unfold content. cbn [set_h sync set_data w_at]. rewrite W1. f_equal.
  change (w_data (sync w p g f (flushed (log_of f)) (length (log_of f))) p g = f_disk f).
  rewrite (sync_data w p g f (log_of f)); [|apply flushed_le|lia|reflexivity|exact W3]. rewrite firstn_all. unfold f_disk. rewrite W4. reflexivity.
Qed.

Lemma writing_all_ok w i path ts es f : session real_db path (map calls ts) = (f, Ok es) -> w_h w i = None ->
  snd (run w (writing_all i path ts)) = Ok Done :: map (fun e => Ok (Heard e)) es ++ [Ok Done; Ok Done] /\
  content (fst (run w (writing_all i path ts))) path = Some (f_disk f) /\ w_h (fst (run w (writing_all i path ts))) i = None.
Proof.
  intros S FR. destruct (writing_ok w i path ts es f S FR) as (A & g & W). unfold writing_all.
  change ([mkOp i AClose; mkOp i ADrop]) with ([mkOp i AClose] ++ [mkOp i ADrop]). rewrite app_assoc, run_app.
  destruct (run w (writing i path ts ++ [mkOp i AClose])) as [w1 l]. cbn [fst snd] in A, W |- *. subst l.
  destruct (drop_ok w1 i path g f W) as (D1 & D2 & D3). cbn [run]. destruct (step w1 (mkOp i ADrop)) as [w2 a]. cbn [fst snd] in D1, D2, D3 |- *. injection D1 as ->.
  split; [|auto]. cbn [app]. f_equal. now rewrite <- app_assoc.
Qed.

(** ** Reading a file that stays as it is *)
Definition at_disk (d : bytes) (it : iter) : cursor val := mkCursor (it_front it) (map (fun g => g (Some d)) (it_todo it)).

Lemma open_at_disk d sis t b : open_iter d sis t b = (it <-? open_later sis t b ;; Ok (at_disk d it)).
Proof.
  unfold open_iter, open_later. destruct (item_type_name sis b); [|reflexivity..]. cbn [rbind]. destruct (existsb _ _); [|reflexivity].
  destruct (br_subs b); [|reflexivity]. unfold baskets_todo. destruct (sizes_for b); [|reflexivity..]. cbn [rbind]. destruct (leaves_for b); [|reflexivity..]. cbn [rbind].
  destruct (embedded_todo sis b); [|reflexivity..]. cbn [rbind]. unfold at_disk. cbn [it_front it_todo]. rewrite !map_app, !map_map. do 3 f_equal.
  apply map_ext. intros [[[s n] z] lf]. reflexivity.
Qed.

Lemma next_at_disk d it : next (at_disk d it) = (x <-? next_at (Some d) it ;; Ok (fst x, at_disk d (snd x))).
Proof.
  destruct it as [fr td]. unfold next, next_at, at_disk. cbn [cu_front cu_todo it_front it_todo]. destruct fr as [|a fr]; [|reflexivity].
  induction td as [|g td IH]; [reflexivity|]. cbn [map next_todo next_later]. destruct (g (Some d)) as [[|a l]|?| | |]; [exact IH|reflexivity..].
Qed.

(** [n] calls of [next] on the iterator [k]. *)
Lemma nexts w k p d n : forall it vs, content w p = Some d -> w_h w k = Some (HIter p it) ->
  (forall m, (m <= n)%nat -> exists c', take m (at_disk d it) = Ok (firstn m vs, c')) ->
  snd (run w (repeat (mkOp k ANext) n)) = map (fun m => Ok (Got (nth_error vs m))) (seq 0 n).
Proof.
  revert w. induction n as [|n IH]; intros w it vs CO H T; [reflexivity|]. cbn [repeat run step o_act o_id]. rewrite H, CO.
  destruct (T 1%nat) as (c1 & T1); [lia|]. cbn [take] in T1. apply rbind_inv in T1 as ((o & c2) & E & T1). cbn [fst snd] in T1.
  rewrite next_at_disk in E. apply rbind_inv in E as ((o' & it') & E & E2). cbn [fst snd] in E2. injection E2 as -> <-. rewrite E.
  assert (HO : o = nth_error vs 0).
  { destruct o as [a|]; cbn [rbind] in T1; injection T1 as T1 _; destruct vs; cbn in T1; try discriminate; [now injection T1 as <-|reflexivity]. }
  assert (HN : next (at_disk d it) = Ok (o, at_disk d it')) by (rewrite next_at_disk, E; reflexivity).
  specialize (IH (set_h w k (Some (HIter p it'))) it' (tl vs) CO).
  destruct (run (set_h w k (Some (HIter p it'))) (repeat (mkOp k ANext) n)) as [w2 l] eqn:R. cbn [snd] in *. cbn [seq map]. f_equal; [now rewrite HO|].
  rewrite IH.
  - rewrite <- seq_shift, map_map. apply map_ext. intros m. destruct vs; [now destruct m|reflexivity].
  - cbn [set_h w_h]. now rewrite upd_n_same.
  - intros m Hm. destruct (T (S m)) as (c' & TM); [lia|]. cbn [take] in TM. rewrite HN in TM. cbn [rbind fst snd] in TM. destruct vs as [|a vs].
    + cbn [nth_error] in HO. subst o. injection TM as _. exists (at_disk d it').
      (* at the end [next] goes on saying so *)
      assert (Z : it' = mkIter [] []).
      { clear - E. unfold next_at in E. destruct (it_front it); [|discriminate]. induction (it_todo it) as [|g td IH]; cbn [next_later] in E; [now injection E as <-|].
        destruct (g (Some d)) as [[|]|?| | |]; try discriminate. now apply IH. }
      subst it'. cbn [tl]. rewrite firstn_nil. destruct m; reflexivity.
    + cbn [nth_error] in HO. subst o. apply rbind_inv in TM as ((l1 & c2) & TM & Q). cbn [fst snd firstn] in Q. injection Q as -> <-. exists c2. exact TM.
Qed.

Lemma open_io d fo : open_file d = Ok fo -> f_io fo = IORead d.
Proof.
  unfold open_file. intros H. repeat (apply rbind_inv in H as (? & _ & H)). now injection H as <-.
Qed.
Lemma set_io_same f x : f_io f = x -> f_set_io f x = f.
Proof. intros <-. now destruct f. Qed.

Lemma opening_ok w i j k path d fo r b tree col t : i <> j -> j <> k -> i <> k ->
  w_h w i = None -> w_h w j = None -> w_h w k = None ->
  content w path = Some d -> open_file d = Ok fo -> get_tree fo tree = Ok r -> tree_branch r col = Some b ->
  forall it, open_later (f_sinfos fo) t b = Ok it ->
  snd (run w (reading i j k path tree col t 0)) = [Ok Done; Ok Done; Ok Done] /\
  w_h (fst (run w (reading i j k path tree col t 0))) k = Some (HIter path it) /\
  forall p, content (fst (run w (reading i j k path tree col t 0))) p = content w p.
Proof.
  intros IJ JK IK FI FJ FK CO O G B it OL. pose proof (open_io _ _ O) as IO.
  unfold reading. cbn [app repeat run step o_act o_id]. unfold free. rewrite FI. cbn [negb]. rewrite CO, O. cbn [make].
  cbn [set_h w_h w_at w_data]. rewrite (upd_n_other (w_h w) i j) by assumption. rewrite FJ. cbn [negb]. rewrite upd_n_same.
  change (content (set_h w i (Some (HReader path fo))) path) with (content w path). rewrite CO, (set_io_same fo _ IO), G. cbn [make].
  cbn [set_h w_h w_at w_data]. rewrite (upd_n_other _ j k) by assumption. rewrite (upd_n_other _ i k) by assumption. rewrite FK. cbn [negb]. rewrite upd_n_same, B, OL. cbn [make fst snd].
  split; [reflexivity|]. split; [cbn [set_h w_h]; now rewrite upd_n_same|reflexivity].
Qed.

Lemma reading_ok w i j k path d fo r b tree col t vs n : i <> j -> j <> k -> i <> k ->
  w_h w i = None -> w_h w j = None -> w_h w k = None ->
  content w path = Some d -> open_file d = Ok fo -> get_tree fo tree = Ok r -> tree_branch r col = Some b ->
  br_subs b = [] -> as_iter d (f_sinfos fo) t b = Ok vs ->
  snd (run w (reading i j k path tree col t n)) = [Ok Done; Ok Done; Ok Done] ++ map (fun m => Ok (Got (nth_error vs m))) (seq 0 n).
Proof.
  intros IJ JK IK FI FJ FK CO O G B NS V.
  apply (step_by_step d (f_sinfos fo) t b vs NS) in V as (cu & OI & TK). rewrite open_at_disk in OI. apply rbind_inv in OI as (it & OL & E). injection E as <-.
  destruct (opening_ok w i j k path d fo r b tree col t IJ JK IK FI FJ FK CO O G B it OL) as (A1 & A2 & A3).
  change (reading i j k path tree col t n) with ([mkOp i (AOpen path); mkOp j (AGet i tree); mkOp k (AIter j col t)] ++ repeat (mkOp k ANext) n).
  change (reading i j k path tree col t 0) with [mkOp i (AOpen path); mkOp j (AGet i tree); mkOp k (AIter j col t)] in *.
  rewrite run_app. cbn [snd]. rewrite A1. f_equal. eapply nexts; [rewrite A3; exact CO|exact A2|]. intros m _. apply TK.
Qed.

(** A call leaves the other handles as they are. *)
Lemma step_h w o k : o_id o <> k -> w_h (fst (step w o)) k = w_h w k.
Proof.
  intros N. assert (M : forall A ww i (r : res A) h, i <> k -> w_h (fst (make ww i r h)) k = w_h ww k).
  { intros A ww i r h NE. destruct r; cbn [make fst set_h w_h]; try reflexivity. now apply upd_n_other. }
  assert (OW : forall A (m : FM A) say, w_h (fst (on_writer w (o_id o) m say)) k = w_h w k).
  { intros A m say. unfold on_writer. destruct (w_h w (o_id o)) as [[p g f n|p f|p s t|p it]|]; try reflexivity. destruct (m f) as [f' r].
    cbn [fst set_h w_h sync set_data]. now rewrite upd_n_other. }
  destruct o as [i a]. cbn [o_id] in *. destruct a as [p|t| | |p|j n|j n t| |p]; cbn [step o_act o_id]; try apply OW.
  - destruct (free w i); [|reflexivity]. cbn [negb]. destruct (create p) as [f [u|e| | |]]; cbn [fst set_h sync set_data w_h]; try reflexivity. now apply upd_n_other.
  - destruct (w_h w i) as [[? ? ? ?|? ?|? ? ?|? ?]|] eqn:E; cbn [fst set_h sync set_data w_h]; try reflexivity; now apply upd_n_other.
  - destruct (free w i); [|reflexivity]. now apply M.
  - destruct (free w i); [|reflexivity]. cbn [negb]. destruct (w_h w j) as [[? ? ? ?|? ?|? ? ?|? ?]|]; try reflexivity; now apply M.
  - destruct (free w i); [|reflexivity]. cbn [negb]. destruct (w_h w j) as [[? ? ? ?|? ?|? ? ?|? ?]|]; try reflexivity. destruct (tree_branch _ _); [now apply M|reflexivity].
  - destruct (w_h w i) as [[? ? ? ?|? ?|? ? ?|? ?]|]; try reflexivity. destruct (next_at _ _) as [[? ?]|?| | |]; try reflexivity. cbn [fst set_h w_h]. now apply upd_n_other.
  - reflexivity.
Qed.
Lemma run_h ops : forall w k, (forall o, In o ops -> o_id o <> k) -> w_h (fst (run w ops)) k = w_h w k.
Proof.
  induction ops as [|o ops IH]; intros w k N; [reflexivity|]. cbn [run]. pose proof (step_h w o k (N o (or_introl eq_refl))) as E.
  destruct (step w o) as [w1 a]. cbn [fst] in E. specialize (IH w1 k (fun x Hx => N x (or_intror Hx))). destruct (run w1 ops) as [w2 l]. cbn [fst] in *. congruence.
Qed.

(** Calls of readers leave the files as they are. *)
Definition reads_only (o : op) : Prop := match o_act o with AOpen _ | AGet _ _ | AIter _ _ _ | ANext => True | _ => False end.
Lemma step_reading_content w o p : reads_only o -> content (fst (step w o)) p = content w p.
Proof.
  assert (M : forall A ww i (r : res A) h, content (fst (make ww i r h)) p = content ww p) by (intros A ww i r h; destruct r; reflexivity).
  destruct o as [i a]. destruct a as [q|t| | |q|j n|j n t| |q]; intros R; try destruct R; cbn [step o_act o_id].
  - destruct (free w i); [|reflexivity]. apply M.
  - destruct (free w i); [|reflexivity]. cbn [negb]. destruct (w_h w j) as [[? ? ? ?|? ?|? ? ?|? ?]|]; try reflexivity; apply M.
  - destruct (free w i); [|reflexivity]. cbn [negb]. destruct (w_h w j) as [[? ? ? ?|? ?|? ? ?|? ?]|]; try reflexivity. destruct (tree_branch _ _); [apply M|reflexivity].
  - destruct (w_h w i) as [[? ? ? ?|? ?|? ? ?|? ?]|]; try reflexivity. destruct (next_at _ _) as [[? ?]|?| | |]; reflexivity.
Qed.
Lemma run_reading_content w ops p : (forall o, In o ops -> reads_only o) -> content (fst (run w ops)) p = content w p.
Proof.
  revert w. induction ops as [|o ops IH]; intros w R; [reflexivity|]. cbn [run]. pose proof (step_reading_content w o p (R o (or_introl eq_refl))) as E.
  destruct (step w o) as [w1 a]. cbn [fst] in E. specialize (IH w1 (fun x Hx => R x (or_intror Hx))). destruct (run w1 ops) as [w2 l]. cbn [fst] in *. congruence.
Qed.
