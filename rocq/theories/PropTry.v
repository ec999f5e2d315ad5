(** C49: a program that goes on after a refused tree loses that tree only. *)
From Verif Require Import Base File Column TreeSession StreamerDb SpecTree SpecTry SessFacts FileFacts TryFacts Sample.

(** Whatever is tried in whatever order, [write] answers an error exactly for the names
    with a slash, and the closed file has exactly the other tables, complete. *)
Theorem C49_refused_trees_cost_only_themselves path ts os f : attempted path ts os f ->
  Forall2 answer ts os /\
  (short_path path -> exists fo, open_file (f_disk f) = Ok fo /\ shows_tables fo (accepted ts)).
Proof.
  intros H. destruct (attempted_closed _ _ _ _ H) as (O & keys & sbuf & recs & rest & C). split.
  - apply outcome_answer; [exact O|]. exact (cd_events _ _ _ _ _ _ _ _ C).
  - intros Sh. destruct (cd_open _ _ _ _ _ _ _ _ C Sh) as (fo & E & _ & _ & _ & _ & X). eauto.
Qed.

(** The file is a gapless chain of records, those of the refused columns included. *)
Theorem C49_records_follow_each_other path ts os f : attempted path ts os f ->
  exists l, record_writes path (writes_of f) = puts l /\ records (first_record path) (puts l) l (zlen (f_disk f)).
Proof.
  intros H. destruct (attempted_closed _ _ _ _ H) as (_ & keys & sbuf & recs & rest & C).
  exact (fact_records _ _ _ _ _ _ _ _ C).
Qed.

(** A crash is as harmless as it is without refused trees. *)
Theorem C49_crashes path ts os f done : attempted path ts os f -> crash (writes_of f) done ->
  (~ save_begun path done -> refused (disk_of done)) /\
  (short_path path -> save_complete path (writes_of f) done -> ~ header_rewrite_begun done ->
   exists fo, open_file (disk_of done) = Ok fo /\ shows_tables fo (accepted ts)).
Proof.
  intros H K. destruct (attempted_closed _ _ _ _ H) as (_ & keys & sbuf & recs & rest & C). split.
  - exact (fact_refused _ _ _ _ _ _ _ _ C done K).
  - intros Sh. exact (fact_window _ _ _ _ _ _ _ _ C done Sh K).
Qed.

(** When no tree is refused this is the program of C13. *)
Theorem C49_without_refusals path ts es f :
  attempt path ts = (f, Ok (map Ok es)) <-> session real_db path (map calls ts) = (f, Ok es).
Proof. apply attempt_session. Qed.

(** ** A program with refusals *)
Definition tried : list table :=
  [ Table (bs "a") [AddColumn (Column (bs "x") (TPrim I16) [VInt 1; VInt (-2)])];
    Table (bs "b/c") [AddColumn (Column (bs "y") (TPrim U8) [VInt 7; VInt 8]); AddCallback];
    Table (bs "d") [AddCallback; AddColumn (Column (bs "s") TString [VStr (bs "one"); VStr []])];
    Table (bs "/") [];
    Table (bs "a") [AddColumn (Column (bs "z") (TPrim PBool) [VInt 1])] ].
Definition tried_file : file := Eval vm_compute in fst (attempt path0 tried).
Definition tried_answers : list (res (list (nat * event))) :=
  map (fun t => if existsb (Z.eqb 47) (tb_name t) then Err ENameSlash else Ok (heard t)) tried.
Lemma tried_ran : attempt path0 tried = (tried_file, Ok tried_answers).
Proof. vm_cast_no_check (eq_refl (tried_file, @Ok (list (res (list (nat * event)))) tried_answers)). Qed.
Lemma tried_tables : Forall table_ok tried.
Proof. unfold tried. sample. Qed.
Example tried_attempted : attempted path0 tried tried_answers tried_file.
Proof.
  split; [split; sample|split; [apply tried_tables|split; [apply few_short; sample|split]]].
  - exact tried_ran.
  - vm_compute. discriminate.
Qed.
Example tried_shows : exists fo, open_file (f_disk tried_file) = Ok fo /\ shows_tables fo (accepted tried) /\
  map tb_name (accepted tried) = [bs "a"; bs "d"; bs "a"] /\
  nth 1 tried_answers Panic = Err ENameSlash /\ nth 3 tried_answers Panic = Err ENameSlash.
Proof.
  destruct (C49_refused_trees_cost_only_themselves _ _ _ _ tried_attempted) as [_ H].
  destruct (H ltac:(vm_compute; discriminate)) as (fo & O & S). exists fo. split; [exact O|]. split; [exact S|].
  split; [vm_compute; reflexivity|]. split; vm_compute; reflexivity.
Qed.
