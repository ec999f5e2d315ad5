(** C54: programs that use several files and handles, in any order. *)
From Verif Require Import Base Key Obj TreeObj File Column ColRead Lazy Spec SpecTree SpecDump SpecDamage
  FileMono SessFacts CrashFacts FileFacts TreeFacts DamageFile LazyFacts DeriveWrite WorldFacts PropTree PropCrash PropDump PropDamage Sample SampleOpen.
From Verif Require Import World SpecWorld SpecTree.

(** ** What one part of a program sees does not depend on the rest *)

(** The answers to the calls on the handles [mine] are the same as if the rest of the
    program were not there, and so are the files they use, however the calls are mixed, as
    long as the rest does not create or remove these files. *)
Theorem C54_schedules_do_not_matter mine used w ops : parted_handles mine used w -> uses_only mine used ops -> leaves_alone mine used ops ->
  answers_to mine ops (snd (run w ops)) = snd (run w (calls_of mine ops)) /\
  forall p, used p -> content (fst (run w ops)) p = content (fst (run w (calls_of mine ops))) p.
Proof.
  intros P U L. destruct (run_parts mine used ops w w (alike_refl mine used w) P U L) as (A & AL & _). split; [exact A|].
  intros p H. exact (alike_content mine used _ _ p AL H).
Qed.

(** So two programs in which a part makes the same calls look the same to that part. *)
Theorem C54_schedules_agree mine used w ops ops' : parted_handles mine used w ->
  uses_only mine used ops -> leaves_alone mine used ops -> uses_only mine used ops' -> leaves_alone mine used ops' ->
  calls_of mine ops = calls_of mine ops' ->
  answers_to mine ops (snd (run w ops)) = answers_to mine ops' (snd (run w ops')) /\
  forall p, used p -> content (fst (run w ops)) p = content (fst (run w ops')) p.
Proof.
  intros P U L U' L' E. destruct (C54_schedules_do_not_matter mine used w ops P U L) as (A & B).
  destruct (C54_schedules_do_not_matter mine used w ops' P U' L') as (A' & B'). rewrite E in A, B. split; [congruence|]. intros p H. now rewrite B, B'.
Qed.

(** ** Files written and read side by side *)
Lemma one_of_in ids n : one_of ids n = true <-> In n ids.
Proof. unfold one_of. rewrite existsb_exists. split; [intros (x & I & E); now apply Nat.eqb_eq in E as ->|intros I; exists n; split; [exact I|apply Nat.eqb_refl]]. Qed.

Lemma part_of ids path w ops calls : (forall i, In i ids -> w_h w i = None) -> nobody_writes w path -> calls_of (one_of ids) ops = calls ->
  (forall o, In o calls -> (forall p, names_path o p -> p = path) /\ (forall j, made_from o j -> In j ids)) ->
  parted_handles (one_of ids) (eq path) w /\ uses_only (one_of ids) (eq path) ops.
Proof.
  intros FR NW CA OK. split.
  - intros i h H. split.
    + intros M. apply one_of_in in M. now rewrite (FR i M) in H.
    + intros _ W E. symmetry in E. exact (NW i h H W E).
  - intros o I M. destruct (OK o) as (A & B); [rewrite <- CA; apply filter_In; auto|]. split; [intros p H; now rewrite (A p H)|]. intros j H. now apply one_of_in, B.
Qed.

Lemma writing_calls i path ts o : In o (writing_all i path ts) -> (forall p, names_path o p -> p = path) /\ (forall j, ~ made_from o j) /\ o_id o = i.
Proof.
  unfold writing_all, writing. intros I. apply in_app_or in I as [[<-|I]|[<-|[<-|[]]]].
  - cbn. repeat split; [intros p E; now symmetry|intros _ []].
  - apply in_map_iff in I as (t & <- & _). cbn. repeat split; [intros p []|intros _ []].
  - cbn. repeat split; [intros p []|intros _ []].
  - cbn. repeat split; [intros p []|intros _ []].
Qed.
Lemma reading_calls i j k path tree col t n o : In o (reading i j k path tree col t n) ->
  (forall p, names_path o p -> p = path) /\ (forall x, made_from o x -> In x [i; j]) /\ In (o_id o) [i; j; k].
Proof.
  unfold reading. intros I. apply in_app_or in I as [[<-|[<-|[<-|[]]]]|I].
  - cbn. repeat split; [intros p E; now symmetry|intros _ []|auto].
  - cbn. repeat split; [intros p []|auto|auto].
  - cbn. repeat split; [intros p []|auto|auto].
  - apply repeat_spec in I as ->. cbn. repeat split; [intros p []|intros _ []|auto].
Qed.

(** While a file is written with handle [i], whatever else the program does with other
    handles and other files, the calls succeed, the callbacks hear what they would hear
    otherwise, and in the end the file has the bytes it would have otherwise. *)
Theorem C54_files_written_side_by_side w ops i path ts es f : finished path ts es f -> w_h w i = None -> nobody_writes w path ->
  calls_of (one_of [i]) ops = writing_all i path ts -> leaves_alone (one_of [i]) (eq path) ops ->
  answers_to (one_of [i]) ops (snd (run w ops)) = written_answers es /\ content (fst (run w ops)) path = Some (f_disk f).
Proof.
  intros F FR NW CA LA. destruct (part_of [i] path w ops _ (fun x H => match H with or_introl e => eq_ind i (fun y => w_h w y = None) FR x e | or_intror z => match z with end end) NW CA) as (P & U).
  { intros o I. destruct (writing_calls i path ts o I) as (A & B & _). split; [exact A|]. intros j M. destruct (B j M). }
  destruct (C54_schedules_do_not_matter _ _ w ops P U LA) as (A & C). rewrite A, (C path eq_refl), CA.
  destruct F as (_ & _ & _ & S & _). destruct (writing_all_ok w i path ts es f S FR) as (X & Y & _). split; [exact X|exact Y].
Qed.

(** Readers of a file, whatever else happens in between. *)
Theorem C54_readers_in_any_order w ops i j k path d fo r b tree col t vs n : i <> j -> j <> k -> i <> k ->
  w_h w i = None -> w_h w j = None -> w_h w k = None -> nobody_writes w path ->
  content w path = Some d -> open_file d = Ok fo -> get_tree fo tree = Ok r -> tree_branch r col = Some b -> br_subs b = [] -> values_of fo t b = Ok vs ->
  calls_of (one_of [i; j; k]) ops = reading i j k path tree col t n -> leaves_alone (one_of [i; j; k]) (eq path) ops ->
  answers_to (one_of [i; j; k]) ops (snd (run w ops)) = read_answers vs n /\ content (fst (run w ops)) path = Some d.
Proof.
  intros IJ JK IK FI FJ FK NW CO O G B NS V CA LA. assert (FR : forall x, In x [i; j; k] -> w_h w x = None) by (intros x [<-|[<-|[<-|[]]]]; assumption).
  destruct (part_of [i; j; k] path w ops _ FR NW CA) as (P & U).
  { intros o I. destruct (reading_calls i j k path tree col t n o I) as (X & Y & _). split; [exact X|]. intros y M. destruct (Y y M) as [<-|[<-|[]]]; cbn; auto. }
  destruct (C54_schedules_do_not_matter _ _ w ops P U LA) as (A & C). rewrite A, (C path eq_refl), CA.
  unfold values_of in V. replace (f_disk fo) with d in V by (unfold f_disk; now rewrite (open_io _ _ O)). split.
  - exact (reading_ok w i j k path d fo r b tree col t vs n IJ JK IK FI FJ FK CO O G B NS V).
  - pose proof (run_reading_content w (reading i j k path tree col t n) path) as RC. rewrite RC; [exact CO|]. intros o I. unfold reading in I.
    apply in_app_or in I as [[<-|[<-|[<-|[]]]]|I]; [exact Logic.I..|]. apply repeat_spec in I as ->. exact Logic.I.
Qed.

(** A file is written with handle [a] and then a column of it is read, one value after the
    other, while the rest of the program does anything with other files. *)
Theorem C54_written_then_read w ops a i j k path ts es f u c n : i <> j -> j <> k -> i <> k ->
  finished path ts es f -> short_path path -> newest ts (tb_name u) u -> ~ In 59 (tb_name u) ->
  In c (columns (tb_setup u)) -> NoDup (map c_name (columns (tb_setup u))) -> column_readable c ->
  (forall x, In x [a; i; j; k] -> w_h w x = None) -> nobody_writes w path ->
  calls_of (one_of [a; i; j; k]) ops = writing_all a path ts ++ reading i j k path (tb_name u) (c_name c) (c_type c) n ->
  leaves_alone (one_of [a; i; j; k]) (eq path) ops ->
  answers_to (one_of [a; i; j; k]) ops (snd (run w ops)) = written_answers es ++ read_answers (c_values c) n.
Proof.
  intros IJ JK IK F SP NE NS IC ND CR FR NW CA LA. destruct (part_of [a; i; j; k] path w ops _ FR NW CA) as (P & U).
  { intros o I. apply in_app_or in I as [I|I].
    - destruct (writing_calls a path ts o I) as (A & B & _). split; [exact A|]. intros x M. destruct (B x M).
    - destruct (reading_calls i j k path _ _ _ n o I) as (X & Y & _). split; [exact X|]. intros y M. destruct (Y y M) as [<-|[<-|[]]]; cbn; auto. }
  destruct (C54_schedules_do_not_matter _ _ w ops P U LA) as (A & _). rewrite A, CA, run_app. cbn [snd].
  destruct (C13_file_gives_back_its_tables _ _ _ _ F SP) as (fo & O & ST). destruct (newest_shown fo ts _ u ST NE NS) as (r & G & SH).
  pose proof F as (_ & _ & _ & S & _). destruct (writing_all_ok w a path ts es f S (FR a (or_introl eq_refl))) as (X & Y & Z).
  set (w1 := fst (run w (writing_all a path ts))) in *. rewrite X. f_equal.
  assert (H1 : forall x, In x [a; i; j; k] -> w_h w1 x = None).
  { intros x I. destruct (Nat.eq_dec x a) as [->|N]; [exact Z|]. unfold w1. rewrite run_h; [now apply FR|]. intros o J. destruct (writing_calls a path ts o J) as (_ & _ & ->). congruence. }
  assert (EB : exists b, tree_branch r (c_name c) = Some b /\ shows_column fo c b).
  { pose proof (tree_flat fo u r SH) as TF. rewrite tree_branch_first, TF. destruct SH as (_ & _ & SH). clear - SH IC ND.
    assert (NB : map br_name (t_branches r) = map c_name (columns (tb_setup u))) by (clear - SH; induction SH as [|? ? ? ? Hb _ IH]; [reflexivity|]; cbn [map]; rewrite IH; f_equal; apply Hb).
    assert (X : exists b, In b (t_branches r) /\ shows_column fo c b) by (clear NB ND; induction SH as [|x y l m Hb _ IH]; [destruct IC|]; destruct IC as [->|IC]; [exists y; cbn; auto|]; destruct (IH IC) as (b & ? & ?); exists b; cbn; auto).
    destruct X as (b & IB & SB). exists b. split; [|exact SB]. rewrite <- (proj1 SB). apply find_nodup; [rewrite NB; exact ND|exact IB]. }
  destruct EB as (b & TB & SB). destruct SB as (_ & SU & _ & V & _). destruct CR as [CN CV].
  assert (VV : values_of fo (c_type c) b = Ok (c_values c)) by now apply V.
  unfold values_of in VV. replace (f_disk fo) with (f_disk f) in VV by (unfold f_disk at 2; now rewrite (open_io _ _ O)).
  apply (reading_ok w1 i j k path (f_disk f) fo r b); try assumption; apply H1; cbn; auto.
Qed.

(** A file that is not there, or has been removed, cannot be opened: that is an error, and
    it stays one until somebody creates the file, whatever else happens in between and
    whoever still has it open. *)
Lemma still_missing o w p : content w p = None -> o_act o <> ACreate p -> content (fst (step w o)) p = None.
Proof.
  assert (E : forall w, content w p = None <-> w_at w p = None).
  { intros w0. unfold content. destruct (w_at w0 p); split; intros H; try discriminate H; reflexivity. }
  rewrite !E. intros H N. unfold step. destruct (o_act o) as [q|t| | |q|j nm|j nm t| |q] eqn:A.
  - destruct (negb _); [exact H|]. destruct (create q) as [f r].
    assert (X : forall n, upd_p (w_at w) q (Some n) p = None).
    { intros n. unfold upd_p. destruct (beqb_spec q p) as [->|]; [|exact H]. congruence. }
    destruct r; apply X.
  - unfold on_writer. destruct (w_h w (o_id o)) as [[]|]; try exact H. destruct (write_one _ _ _). exact H.
  - unfold on_writer. destruct (w_h w (o_id o)) as [[]|]; try exact H. destruct (close _ _). exact H.
  - destruct (w_h w (o_id o)) as [[]|]; exact H.
  - destruct (negb _); [exact H|]. unfold make. destruct (match content w q with Some _ => _ | None => _ end); exact H.
  - destruct (negb _); [exact H|]. destruct (w_h w j) as [[]|]; try exact H; unfold make.
    + destruct (get_tree _ _); exact H.
    + destruct (match content w _ with Some _ => _ | None => _ end); exact H.
  - destruct (negb _); [exact H|]. destruct (w_h w j) as [[]|]; try exact H. destruct (tree_branch _ _); [|exact H].
    unfold make. destruct (open_later _ _ _); exact H.
  - destruct (w_h w (o_id o)) as [[]|]; try exact H. destruct (next_at _ _) as [[]| | | |]; exact H.
  - cbn [fst w_at]. unfold upd_p. destruct (beqb q p); [reflexivity|exact H].
Qed.
Theorem C54_missing_files w ops i p : content w p = None \/ In (ARemove p) (map o_act (firstn 1 ops)) ->
  (forall o, In o ops -> o_act o <> ACreate p) ->
  let w' := fst (run w ops) in
  content w' p = None /\ (w_h w' i = None -> step w' (mkOp i (AOpen p)) = (w', Err EIo)).
Proof.
  intros H N. cbv zeta.
  assert (X : content (fst (run w ops)) p = None).
  { assert (G : forall ops w, content w p = None -> (forall o, In o ops -> o_act o <> ACreate p) -> content (fst (run w ops)) p = None).
    { clear. induction ops as [|o ops IH]; intros w H N; [exact H|]. cbn [run].
      pose proof (still_missing o w p H (N o (or_introl eq_refl))) as S. destruct (step w o) as [w1 a]. cbn [fst] in S.
      specialize (IH w1 S (fun x J => N x (or_intror J))). destruct (run w1 ops) as [w2 l]. exact IH. }
    destruct H as [H|H]; [exact (G ops w H N)|]. destruct ops as [|o ops]; [destruct H|]. destruct H as [H|[]].
    cbn [run]. destruct o as [k a]. cbn [o_act] in H. subst a.
    set (w1 := mkW (upd_p (w_at w) p None) (w_next w) (w_data w) (w_h w)).
    change (step w (mkOp k (ARemove p))) with (w1, @Ok reply Done). cbv beta iota.
    assert (C : content w1 p = None) by (unfold content, w1; cbn [w_at]; unfold upd_p; destruct (beqb_spec p p); [reflexivity|congruence]).
    specialize (G ops w1 C (fun x J => N x (or_intror J))). destruct (run w1 ops) as [w2 l]. exact G. }
  split; [exact X|]. intros F. unfold step. cbn [o_act o_id]. unfold free. rewrite F, X. reflexivity.
Qed.
(** Before a program starts, and after it has removed what it is still writing. *)
Example missing_files : snd (run empty_world [mkOp 1 (AOpen path0); mkOp 0 (ACreate path0); mkOp 2 (ARemove path0); mkOp 1 (AOpen path0)]) =
  [Err EIo; Ok Done; Ok Done; Err EIo].
Proof. vm_compute. reflexivity. Qed.

(** ** Where the order does matter *)

(** [close] leaves the last 63 bytes in the buffer of the file: a file that has been closed
    but not dropped cannot be opened; opening it panics. *)
Theorem C54_closed_is_not_enough w i j path ts es f : finished path ts es f -> i <> j -> w_h w i = None -> w_h w j = None ->
  snd (run w (writing i path ts ++ [mkOp i AClose; mkOp j (AOpen path)])) = Ok Done :: map (fun e => Ok (Heard e)) es ++ [Ok Done; Panic].
Proof.
  intros F IJ FI FJ. pose proof F as (_ & _ & _ & S & _). destruct (writing_ok w i path ts es f S FI) as (A & g & W1 & W2 & W3 & W4).
  change ([mkOp i AClose; mkOp j (AOpen path)]) with ([mkOp i AClose] ++ [mkOp j (AOpen path)]). rewrite app_assoc, run_app. cbn [snd]. rewrite A.
  set (w1 := fst (run w (writing i path ts ++ [mkOp i AClose]))) in *. cbn [app]. f_equal. rewrite <- app_assoc. f_equal. cbn [app]. f_equal.
  assert (FJ1 : w_h w1 j = None).
  { unfold w1. rewrite run_h; [exact FJ|]. intros o I. apply in_app_or in I as [I|[<-|[]]]; [|exact IJ].
    destruct (writing_calls i path ts o) as (_ & _ & ->); [apply in_or_app; now left|exact IJ]. }
  cbn [run step o_act o_id]. unfold free. rewrite FJ1. cbn [negb]. unfold content. rewrite W1, W3.
  destruct (finished_closed _ _ _ _ F) as (keys & sbuf & recs & rest & C).
  destruct (finished_parted _ _ _ _ F) as (P & T & NB & kcs & sis & recs' & log & sis' & sbuf' & CS & PT).
  assert (WL : writes_of f = log ++ close_log path (map fst kcs) sbuf' (E0 path + rsize recs')) by (rewrite (cl_file _ _ _ _ _ _ _ _ _ _ _ CS); reflexivity).
  pose proof (w_hlen path ts es f kcs sis recs' log sis' sbuf' P CS) as HL.
  assert (LL : exists done, writes_of f = done ++ [(0, hdrb (hdr1 path (map fst kcs) sbuf' (E0 path + rsize recs')))]).
  { rewrite WL. unfold close_log. cbv zeta. match goal with |- context [rec_writes ?x ++ [(0, repeat 0 100); ?y]] => change (rec_writes x ++ [(0, repeat 0 100); y]) with (rec_writes x ++ [(0, repeat 0 100)] ++ [y]) end. eexists. rewrite !app_assoc. reflexivity. }
  destruct LL as (done & LL). pose proof (fact_blank path ts es f keys sbuf recs rest C done _ LL) as BL.
  assert (FL : firstn (flushed (log_of f)) (log_of f) = done).
  { change (log_of f) with (writes_of f). rewrite LL. unfold flushed. rewrite rev_app_distr. cbn [rev app]. rewrite HL. cbn [Z.ltb Z.compare Pos.compare Pos.compare_cont].
    rewrite app_length. cbn [length]. replace (length done + 1 - 1)%nat with (length done) by lia. rewrite firstn_app, firstn_all, Nat.sub_diag, firstn_O. apply app_nil_r. }
  rewrite FL. change (apply_writes [] done) with (disk_of done). rewrite BL. reflexivity.
Qed.

(** After it is dropped the same file opens (this is C13): the order of the two calls decides. *)
Theorem C54_dropped_is_enough w i j path ts es f : finished path ts es f -> short_path path -> i <> j -> w_h w i = None -> w_h w j = None ->
  snd (run w (writing_all i path ts ++ [mkOp j (AOpen path)])) = written_answers es ++ [Ok Done].
Proof.
  intros F SP IJ FI FJ. pose proof F as (_ & _ & _ & S & _). destruct (writing_all_ok w i path ts es f S FI) as (A & B & _).
  destruct (C13_file_gives_back_its_tables _ _ _ _ F SP) as (fo & O & _). rewrite run_app. cbn [snd]. rewrite A. unfold written_answers. f_equal.
  cbn [run step o_act o_id]. unfold free. rewrite run_h, FJ.
  - cbn [negb]. rewrite B, O. reflexivity.
  - intros o I. destruct (writing_calls i path ts o I) as (_ & _ & ->). exact IJ.
Qed.

(** ** A concrete program *)

(** The same tables as in Sample.v, except that the last value is [false]. *)
Definition other_tables : list table :=
  firstn 2 tables0 ++ [Table (bs "events") [AddColumn (Column (bs "y") (TPrim PBool) [VInt 0])]].
Definition other_file : file := Eval vm_compute in fst (session real_db path0 (map calls other_tables)).
Lemma other_ran : session real_db path0 (map calls other_tables) = (other_file, Ok heard0).
Proof. vm_cast_no_check (eq_refl (other_file, @Ok (list (list (nat * event))) heard0)). Qed.
Lemma other_finished : finished path0 other_tables heard0 other_file.
Proof.
  split; [exact (proj1 sample_finished)|]. split; [unfold other_tables; cbn [firstn tables0 app]; sample|]. split; [apply few_short; sample|]. split; [exact other_ran|].
  vm_compute. discriminate.
Qed.

(** Handle 0 writes the sample file while handle 7 writes another file and fails to read the
    first one. *)
Definition mixed : list op :=
  let '(a, b) := (writing_all 0 path0 tables0, writing_all 7 (bs "b.root") [Table (bs "t") []]) in
  firstn 2 a ++ firstn 1 b ++ [mkOp 8 (AOpen path0)] ++ firstn 1 (skipn 2 a) ++ skipn 1 b ++ skipn 3 a ++ [mkOp 9 (ARemove (bs "b.root"))].
Lemma mixed_calls : calls_of (one_of [0%nat]) mixed = writing_all 0 path0 tables0 /\ calls_of (one_of [7%nat]) mixed = writing_all 7 (bs "b.root") [Table (bs "t") []].
Proof. split; reflexivity. Qed.
Lemma mixed_alone : leaves_alone (one_of [0%nat]) (eq path0) mixed.
Proof.
  intros o I M p R <-. apply (in_split o) in I as (l1 & l2 & E).
  assert (X : forallb (fun o => orb (one_of [0%nat] (o_id o)) (match o_act o with ACreate q | ARemove q => negb (beqb q path0) | _ => true end)) mixed = true) by (vm_compute; reflexivity).
  rewrite E, forallb_app in X. apply andb_prop in X as (_ & X). cbn [forallb] in X. apply andb_prop in X as (X & _). rewrite M in X. cbn [orb] in X.
  unfold replaces in R. destruct (o_act o); try destruct R; subst; rewrite beqb_refl in X; discriminate.
Qed.
Example side_by_side0 : answers_to (one_of [0%nat]) mixed (snd (run empty_world mixed)) = written_answers heard0 /\
  content (fst (run empty_world mixed)) path0 = Some (f_disk sample_file).
Proof.
  apply C54_files_written_side_by_side with (ts := tables0); [exact sample_finished|reflexivity|intros i h H; discriminate H|exact (proj1 mixed_calls)|exact mixed_alone].
Qed.
Example agree0 : parted_handles (one_of [0%nat]) (eq path0) empty_world /\ uses_only (one_of [0%nat]) (eq path0) mixed.
Proof.
  apply (part_of [0%nat] path0 empty_world mixed (writing_all 0 path0 tables0)); [reflexivity|intros i h H; discriminate H|exact (proj1 mixed_calls)|].
  intros o I. destruct (writing_calls 0 path0 tables0 o I) as (A & B & _). split; [exact A|]. intros j M. destruct (B j M).
Qed.
Lemma other_disk : f_disk other_file = flipped. Proof. vm_compute. reflexivity. Qed.
Definition sample_iter : iter := match open_later (f_sinfos sample_opened) (TPrim PBool) sample_branch with Ok it => it | _ => mkIter [] [] end.
Lemma sample_iter_ok : open_later (f_sinfos sample_opened) (TPrim PBool) sample_branch = Ok sample_iter.
Proof.
  assert (exists it, open_later (f_sinfos sample_opened) (TPrim PBool) sample_branch = Ok it) as (it & E); [|unfold sample_iter; now rewrite E].
  assert (open_iter (f_disk sample_file) (f_sinfos sample_opened) (TPrim PBool) sample_branch = Ok (mkCursor [] [Ok [VInt 1]])) as E by (vm_compute; reflexivity).
  rewrite open_at_disk in E. apply rbind_inv in E as (it & E & _). now exists it.
Qed.
Lemma sample_iter_flipped : next_at (Some flipped) sample_iter = Ok (Some (VInt 0), mkIter [] []).
Proof. vm_compute. reflexivity. Qed.
Lemma sample_iter_none : next_at None sample_iter = Panic.
Proof. vm_compute. reflexivity. Qed.

Lemma next_step w k p it v it' : w_h w k = Some (HIter p it) -> next_at (content w p) it = Ok (v, it') -> snd (run w [mkOp k ANext]) = [Ok (Got v)].
Proof. intros H N. cbn [run step o_act o_id]. rewrite H, N. reflexivity. Qed.
Lemma removed_step w k p it : w_h w k = Some (HIter p it) -> next_at None it = Panic -> snd (run w [mkOp 9 (ARemove p); mkOp k ANext]) = [Ok Done; Panic].
Proof. intros H N. cbn [run step o_act o_id w_h w_at]. rewrite H. unfold content. cbn [w_at]. rewrite upd_p_same, N. reflexivity. Qed.
Lemma ne12 : 1%nat <> 2%nat. Proof. discriminate. Qed.
Lemma ne23 : 2%nat <> 3%nat. Proof. discriminate. Qed.
Lemma ne13 : 1%nat <> 3%nat. Proof. discriminate. Qed.
Lemma ne10 : 1%nat <> 0%nat. Proof. discriminate. Qed.
Lemma ne20 : 2%nat <> 0%nat. Proof. discriminate. Qed.
Lemma ne30 : 3%nat <> 0%nat. Proof. discriminate. Qed.
Lemma sample_gets : get_tree sample_opened (bs "events") = Ok sample_tree. Proof. vm_compute. reflexivity. Qed.
Lemma sample_finds : tree_branch sample_tree (bs "y") = Some sample_branch. Proof. vm_compute. reflexivity. Qed.

Lemma sample_stale w : w_h w 0 = None -> w_h w 1 = None -> w_h w 2 = None -> w_h w 3 = None ->
  let ops := writing_all 0 path0 tables0 ++ reading 1 2 3 path0 (bs "events") (bs "y") (TPrim PBool) 0 in
  snd (run w ops) = written_answers heard0 ++ [Ok Done; Ok Done; Ok Done] /\
  w_h (fst (run w ops)) 0 = None /\ w_h (fst (run w ops)) 3 = Some (HIter path0 sample_iter).
Proof.
  intros H0 H1 H2 H3 ops. pose proof sample_ran as S. destruct (writing_all_ok w 0 path0 tables0 heard0 sample_file S H0) as (A & B & C).
  unfold ops. rewrite run_app. cbn [fst snd]. rewrite A. set (w1 := fst (run w (writing_all 0 path0 tables0))) in *.
  assert (K : forall x, x <> 0%nat -> w_h w1 x = w_h w x).
  { intros x N. apply run_h. intros o I. destruct (writing_calls 0 path0 tables0 o I) as (_ & _ & ->). congruence. }
  destruct (opening_ok w1 1 2 3 path0 (f_disk sample_file) sample_opened sample_tree sample_branch (bs "events") (bs "y") (TPrim PBool)
    ne12 ne23 ne13 (eq_trans (K 1%nat ne10) H1) (eq_trans (K 2%nat ne20) H2) (eq_trans (K 3%nat ne30) H3) B sample_opens sample_gets sample_finds sample_iter sample_iter_ok) as (A2 & B2 & C2).
  split; [now rewrite A2|]. split; [|exact B2]. rewrite run_h; [exact C|].
  intros o I. destruct (reading_calls _ _ _ _ _ _ _ _ o I) as (_ & _ & J). destruct J as [<-|[<-|[<-|[]]]]; discriminate.
Qed.

(** A tree and its iterators are not bound to the file they were made from: they read
    whatever file is at the path when the values are asked for.  Here the tree was read from
    a file whose column holds 1, and the file is written again with 0. *)
Theorem C54_readers_keep_their_file_refuted : exists path ts es f ts' es' f',
  finished path ts es f /\ finished path ts' es' f' /\
  (forall u c, newest ts (bs "events") u -> In c (columns (tb_setup u)) -> c_values c = [VInt 1]) /\
  snd (run empty_world (writing_all 0 path ts ++ reading 1 2 3 path (bs "events") (bs "y") (TPrim PBool) 0 ++
                        writing_all 0 path ts' ++ [mkOp 3 ANext])) =
    written_answers es ++ [Ok Done; Ok Done; Ok Done] ++ written_answers es' ++ [Ok (Got (Some (VInt 0)))].
Proof.
  exists path0, tables0, heard0, sample_file, other_tables, heard0, other_file. split; [exact sample_finished|]. split; [exact other_finished|]. split.
  - intros u c (ea & la & E & N & L) I. 
    assert (u = Table (bs "events") [AddColumn (Column (bs "y") (TPrim PBool) [VInt 1])]) as ->.
    { destruct la as [|x la] using rev_ind.
      - unfold tables0 in E. change ([?a; ?b; ?c]) with ([a; b] ++ [c]) in E. apply app_inj_tail in E as (_ & E). now symmetry.
      - exfalso. clear IHla. unfold tables0 in E. change (ea ++ u :: la ++ [x]) with (ea ++ (u :: la) ++ [x]) in E. rewrite app_assoc in E.
        match type of E with [?a; ?b; ?c] = _ => change [a; b; c] with ([a; b] ++ [c]) in E end. apply app_inj_tail in E as (_ & E). apply (L x); [apply in_or_app; right; now left|]. now rewrite <- E. }
    cbn in I. destruct I as [<-|[]]. reflexivity.
  - destruct (sample_stale empty_world eq_refl eq_refl eq_refl eq_refl) as (A & B & C). rewrite app_assoc, run_app. cbn [snd]. rewrite A.
    set (w1 := fst (run empty_world (writing_all 0 path0 tables0 ++ _))) in *. destruct (writing_all_ok w1 0 path0 other_tables heard0 other_file other_ran B) as (A2 & B2 & _). rewrite run_app. cbn [snd]. rewrite A2.
    change (Ok Done :: map (fun e => Ok (Heard e)) heard0 ++ [Ok Done; Ok Done]) with (written_answers heard0).
    set (w2 := fst (run w1 (writing_all 0 path0 other_tables))) in *.
    assert (H3 : w_h w2 3 = Some (HIter path0 sample_iter)).
    { unfold w2. rewrite run_h; [exact C|]. intros o I. destruct (writing_calls 0 path0 other_tables o I) as (_ & _ & ->). discriminate. }
    rewrite (next_step w2 3 path0 sample_iter _ _ H3 (eq_trans (f_equal (fun x => next_at x sample_iter) (eq_trans B2 (f_equal Some other_disk))) sample_iter_flipped)).
    rewrite <- app_assoc. reflexivity.
Qed.

(** If the file is removed meanwhile, asking for the next value panics. *)
Theorem C54_readers_keep_removed_files_refuted : exists path ts es f, finished path ts es f /\
  snd (run empty_world (writing_all 0 path ts ++ reading 1 2 3 path (bs "events") (bs "y") (TPrim PBool) 0 ++ [mkOp 9 (ARemove path); mkOp 3 ANext])) =
    written_answers es ++ [Ok Done; Ok Done; Ok Done] ++ [Ok Done; Panic].
Proof.
  exists path0, tables0, heard0, sample_file. split; [exact sample_finished|].
  destruct (sample_stale empty_world eq_refl eq_refl eq_refl eq_refl) as (A & B & C). rewrite app_assoc, run_app. cbn [snd]. rewrite A.
  set (w1 := fst (run empty_world (writing_all 0 path0 tables0 ++ _))) in *. rewrite (removed_step w1 3 path0 sample_iter C sample_iter_none). rewrite <- app_assoc. reflexivity.
Qed.

(** The values of the sample, read while handle 7 writes the other file. *)
Definition mixed2 : list op :=
  let '(a, b) := (writing_all 0 path0 tables0 ++ reading 1 2 3 path0 (bs "events") (bs "y") (TPrim PBool) 2, writing_all 7 (bs "b.root") [Table (bs "t") []]) in
  firstn 2 a ++ firstn 1 b ++ firstn 6 (skipn 2 a) ++ skipn 1 b ++ skipn 8 a.
Example written_then_read0 : answers_to (one_of [0; 1; 2; 3]%nat) mixed2 (snd (run empty_world mixed2)) =
  written_answers heard0 ++ [Ok Done; Ok Done; Ok Done; Ok (Got (Some (VInt 1))); Ok (Got None)].
Proof.
  change ([Ok Done; Ok Done; Ok Done; Ok (Got (Some (VInt 1))); Ok (Got None)]) with (read_answers (c_values (Column (bs "y") (TPrim PBool) [VInt 1])) 2).
  apply (C54_written_then_read empty_world mixed2 0 1 2 3 path0 tables0 heard0 sample_file (Table (bs "events") [AddColumn (Column (bs "y") (TPrim PBool) [VInt 1])])
    (Column (bs "y") (TPrim PBool) [VInt 1]) 2); try discriminate; try exact sample_finished; try exact sample_short.
  - exists (firstn 2 tables0), []. split; [reflexivity|]. split; [reflexivity|]. intros t [].
  - cbn. intuition discriminate.
  - left. reflexivity.
  - cbn. constructor; [intros []|constructor].
  - split; [split; cbn; intuition discriminate|]. repeat constructor.
  - reflexivity.
  - reflexivity.
  - intros o I M p R <-. apply (in_split o) in I as (l1 & l2 & E).
    assert (X : forallb (fun o => orb (one_of [0; 1; 2; 3]%nat (o_id o)) (match o_act o with ACreate q | ARemove q => negb (beqb q path0) | _ => true end)) mixed2 = true) by (vm_compute; reflexivity).
    rewrite E, forallb_app in X. apply andb_prop in X as (_ & X). cbn [forallb] in X. apply andb_prop in X as (X & _). rewrite M in X. cbn [orb] in X.
    unfold replaces in R. destruct (o_act o); try destruct R; subst; rewrite beqb_refl in X; discriminate.
Qed.
