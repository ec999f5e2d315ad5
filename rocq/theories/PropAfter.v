(** C55: a file that has been closed stays as it was closed. *)
From Verif Require Import Base Key Obj TreeObj File FileMono FileLay FileOps FileClose FileOpen FileFinal Column ColRead TreeOps TreeWrite TreeSession StreamerDb Spec SpecTree SpecCrash SessFacts DamageFile
  AfterFacts PropTree PropCrash Sample.

Lemma table_short t : table_ok t -> short_prog (calls t).
Proof.
  intros (_ & N & F). split; [unfold short, calls; cbn [tp_name]; lia|].
  unfold calls. cbn [tp_ops]. revert F. unfold columns. induction (tb_setup t) as [|[c|] l IH]; cbn [map cols_of flat_map app]; intros F; [constructor| |auto].
  inversion F as [|? ? F1 F2]; subst. constructor; [|auto]. destruct F1 as (_ & _ & F1 & _). pose proof (zlen_nonneg (tb_name t)). cbn [cs_name]. unfold short. lia.
Qed.

(** *** Tables written to a file that has been closed do no harm: however that ends, and
    wherever the machine stops meanwhile, the file opens with exactly the tables it was
    closed with. *)
Theorem C55_closed_files_stay path ts es f late f2 r :
  finished path ts es f -> short_path path -> Forall table_ok late -> write_trees real_db (map calls late) f = (f2, r) ->
  exists more, writes_of f2 = writes_of f ++ more /\
    forall done, crash more done -> zlen (disk_of (writes_of f ++ done)) < 2 ^ 63 ->
      (exists added, disk_of (writes_of f ++ done) = f_disk f ++ added) /\ whole (disk_of (writes_of f ++ done)) ts.
Proof.
  intros F S LT W. destruct (finished_parted _ _ _ _ F) as (P & T & NB & kcs & sis & recs & log & sis' & sbuf & CS & _). specialize (NB S).
  destruct (af_len path ts es (map fst kcs) sis recs log sis' sbuf f P CS) as (L1 & L2 & _ & L4).
  assert (IO : f_io f = IOWrite (writes_of f)). { destruct CS as [_ _ _ _ _ _ _ _ _ _ ->]. reflexivity. }
  assert (E : fh_end (f_hdr f) = zlen (f_disk f)) by now rewrite L1.
  destruct (keeps_write_trees (zlen (f_disk f)) real_db (map calls late)) with (f := f) (l := writes_of f) (f' := f2) (r := r) as (more & I2 & FM & _);
    [apply Forall_map; eapply Forall_impl; [|exact LT]; apply table_short|apply zlen_nonneg|exact IO|rewrite E; reflexivity|exact W|].
  exists more. split; [unfold writes_of at 1; rewrite I2; reflexivity|]. intros done C HD.
  pose proof (crash_ge _ _ _ FM C) as FD.
  assert (G : exists added, disk_of (writes_of f ++ done) = f_disk f ++ added).
  { rewrite disk_of_app. destruct (fold_grow done (f_disk f) FD) as (y & EY). exists y. rewrite <- EY. f_equal. unfold f_disk. now rewrite IO. }
  split; [exact G|]. destruct G as (x & EX). rewrite EX in HD |- *.
  exact (af_grown path ts es (map fst kcs) sis recs log sis' sbuf f P NB T CS x HD).
Qed.

(** When nothing stops the machine. *)
Theorem C55_late_tables_are_not_stored path ts es f late f2 r t :
  finished path ts es f -> short_path path -> Forall table_ok late -> write_trees real_db (map calls late) f = (f2, r) -> zlen (f_disk f2) < 2 ^ 63 ->
  In t late -> ~ In 59 (tb_name t) -> ~ In (tb_name t) (map tb_name ts) ->
  exists fo, open_file (f_disk f2) = Ok fo /\ get_tree fo (tb_name t) = Err EKeyNotInFile.
Proof.
  intros F S LT W HD I N1 N2. destruct (C55_closed_files_stay path ts es f late f2 r F S LT W) as (more & E & H).
  destruct (finished_parted _ _ _ _ F) as (_ & _ & _ & kcs & sis & recs & log & sis' & sbuf & CS & _).
  assert (FD : f_disk f2 = disk_of (writes_of f ++ more)).
  { pose proof (mono_write_trees real_db (map calls late) f) as M. rewrite W in M. cbn [fst] in M.
    destruct CS as [_ _ _ _ _ _ _ _ _ _ CF]. rewrite CF in M. cbn [f_io io_ext] in M. destruct M as (l & M). rewrite <- E. unfold f_disk, writes_of. now rewrite M. }
  destruct (H more) as (_ & fo & O & (_ & _ & SH)).
  - rewrite <- (app_nil_r more) at 1. constructor.
  - now rewrite <- FD.
  - exists fo. rewrite FD. split; [exact O|]. now apply SH.
Qed.

(** *** Closing it again never succeeds, tables having been written in between or not. *)
Theorem C55_closing_again_fails path ts es f late f2 r f3 r3 :
  finished path ts es f -> write_trees real_db late f = (f2, r) -> close real_db f2 = (f3, r3) -> r3 <> Ok tt.
Proof.
  intros F W C. destruct (finished_parted _ _ _ _ F) as (P & _ & _ & kcs & sis & recs & log & sis' & sbuf & CS & _).
  destruct (af_len path ts es (map fst kcs) sis recs log sis' sbuf f P CS) as (_ & _ & L3 & _).
  apply (close_info real_db f2 f3 r3); [|exact C]. pose proof (info_write_trees real_db late f) as I. rewrite W in I. cbn [fst] in I. rewrite I, L3.
  destruct CS as [_ LL G NK HE SO SC SR SB S4 CF]. destruct (closed_sizes path (map fst kcs) recs sbuf P HE) as (Z0 & Z1 & Z2 & _). lia.
Qed.

(** *** But it does not lose the tables, for files of at most 10^9 bytes. *)
Theorem C55_closing_again_keeps_the_tables path ts es f f2 r :
  finished path ts es f -> short_path path -> zlen (f_disk f) <= 1000000000 -> close real_db f = (f2, r) -> whole (f_disk f2) ts.
Proof.
  intros F S HL C. destruct (finished_parted _ _ _ _ F) as (P & T & NB & kcs & sis & recs & log & sis' & sbuf & CS & _). specialize (NB S).
  pose proof (again_close path ts es (map fst kcs) sis recs log sis' sbuf f P CS f2 r HL C) as W.
  destruct (again_opens path ts es (map fst kcs) sis recs log sis' sbuf f P NB T CS HL) as (fo & O & SH).
  exists fo. split; [|exact SH]. rewrite <- O. f_equal. rewrite <- W.
  pose proof (mono_close real_db f) as M. rewrite C in M. cbn [fst] in M.
  destruct CS as [_ _ _ _ _ _ _ _ _ _ CF]. rewrite CF in M. cbn [f_io io_ext] in M. destruct M as (l & M). unfold f_disk, writes_of. now rewrite M.
Qed.

(** *** That a table whose writing succeeded can be read is not so. *)
Definition late0 : list table := [Table (bs "late") [AddColumn (Column (bs "x") (TPrim I32) [VInt 5; VInt 6])]].
Definition after_late : file := Eval vm_compute in fst (write_trees real_db (map calls late0) sample_file).
Lemma late_ok : Forall table_ok late0. Proof. unfold late0. sample. Qed.
Lemma late_written : write_trees real_db (map calls late0) sample_file = (after_late, Ok (map heard late0)).
Proof. vm_compute. reflexivity. Qed.
Theorem C55_written_is_stored_refuted : exists path ts es f late f2 es2 t fo,
  finished path ts es f /\ short_path path /\ Forall table_ok late /\ write_trees real_db (map calls late) f = (f2, Ok es2) /\
  In t late /\ open_file (f_disk f2) = Ok fo /\ get_tree fo (tb_name t) = Err EKeyNotInFile.
Proof.
  destruct (C55_late_tables_are_not_stored path0 tables0 heard0 sample_file late0 after_late _ (hd (Table [] []) late0) sample_finished sample_short late_ok late_written) as (fo & O & G).
  - vm_compute. reflexivity.
  - left. reflexivity.
  - intros H. repeat (destruct H as [H|H]; [discriminate H|]). exact H.
  - intros H. repeat (destruct H as [H|H]; [discriminate H|]). exact H.
  - exists path0, tables0, heard0, sample_file, late0, after_late, (map heard late0), (hd (Table [] []) late0), fo.
    split; [exact sample_finished|]. split; [exact sample_short|]. split; [exact late_ok|]. split; [exact late_written|]. split; [left; reflexivity|]. auto.
Qed.

(** The hypotheses are met: the sample file, a table written to it late, a crash in the
    middle of that, and closing it once more. *)
Example C55_sample : (exists more done, writes_of after_late = writes_of sample_file ++ more /\ crash more done /\ done <> [] /\ done <> more /\
  whole (disk_of (writes_of sample_file ++ done)) tables0) /\
  snd (close real_db sample_file) = Panic /\ whole (f_disk (fst (close real_db sample_file))) tables0.
Proof.
  split; [|split].
  - destruct (C55_closed_files_stay _ _ _ _ _ _ _ sample_finished sample_short late_ok late_written) as (more & E & H).
    assert (EM : more = skipn (length (writes_of sample_file)) (writes_of after_late)) by (rewrite E, skipn_app, skipn_all, Nat.sub_diag; reflexivity).
    exists more, (firstn 1 more). assert (C : crash more (firstn 1 more)) by (rewrite <- (firstn_skipn 1 more) at 1; constructor).
    split; [exact E|]. split; [exact C|]. split; [rewrite EM; vm_compute; discriminate|]. split; [rewrite EM; vm_compute; discriminate|].
    apply (H _ C). rewrite EM. vm_compute. reflexivity.
  - vm_compute. reflexivity.
  - destruct (close real_db sample_file) as [f2 r] eqn:C. apply (C55_closing_again_keeps_the_tables path0 tables0 heard0 sample_file f2 r sample_finished sample_short); [|exact C].
    vm_compute. discriminate.
Qed.
