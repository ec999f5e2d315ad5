(** Properties of torn writes: what each byte of the closing of a file, lost, costs. *)
From Verif Require Import Base Bytes RBuf WBuf Values Key Header Obj TreeObj File Column ColRead TreeWrite TreeSession StreamerDb
  Spec SpecTree FileFinal SessFacts Prog FileFacts Sample SpecCrash CrashFacts.

(** ** C51: a crash at any byte *)

(** Wherever a program that writes tables is stopped, between two writes or within one, the
    disk it leaves is refused or holds every table -- except when one of two numbers is cut
    in two. *)
Theorem C51_refused_or_whole path ts es f done : finished path ts es f -> short_path path -> crash (writes_of f) done ->
  ~ position_torn path (writes_of f) done -> ~ name_length_torn path (writes_of f) done ->
  refused (disk_of done) \/ whole (disk_of done) ts.
Proof. intros F S. exact (every_crash path ts es f F S done). Qed.

(** The directory is saved in one write, which is torn after [n] bytes.  As long as no
    nonzero byte of the position of the keys is on disk, the file is refused; once all of
    them are, it holds every table. *)
Theorem C51_torn_directory path ts es f done b more n : finished path ts es f -> short_path path ->
  writes_of f = done ++ (directory_at path, b) :: more ->
  let d := disk_of (done ++ [(directory_at path, firstn n b)]) in
  (zeros (firstn (n - 26) (field 26 4 b)) -> refused d) /\ (zeros (skipn (n - 26) (field 26 4 b)) -> whole d ts).
Proof. intros F S. exact (whole_save path ts es f F S done b more n). Qed.

(** The header is then blanked: a single byte of that write and the file is lost. *)
Theorem C51_torn_blanking path ts es f done z last n : finished path ts es f ->
  writes_of f = done ++ [(0, z); last] -> (0 < n)%nat -> open_file (disk_of (done ++ [(0, firstn n z)])) = Panic.
Proof. intros F. exact (whole_blank path ts es f F done z last n). Qed.

(** The header is written again, and torn after [n] bytes.  Up to 31 the file is refused.
    From there it opens and holds every table, without the descriptions of the classes, as
    long as no nonzero byte of their position (four bytes at 37) is on disk; it is refused
    again until a nonzero byte of their length (four bytes at 41) is; from there it holds
    every table. *)
Theorem C51_torn_header path ts es f done h n : finished path ts es f -> short_path path ->
  writes_of f = done ++ [(0, h)] ->
  let d := disk_of (done ++ [(0, firstn n h)]) in
  ((n <= 30)%nat -> refused d) /\ (n = 31%nat -> zlen path < 110 -> refused d) /\
  ((32 <= n)%nat -> zeros (firstn (n - 37) (field 37 4 h)) ->
     exists fo, open_file d = Ok fo /\ shows_tables fo ts /\ f_sinfos fo = []) /\
  ((32 <= n)%nat -> ~ zeros (firstn (n - 37) (field 37 4 h)) -> zeros (firstn (n - 41) (field 41 4 h)) -> refused d) /\
  (~ zeros (firstn (n - 41) (field 41 4 h)) -> whole d ts).
Proof. intros F S. exact (whole_header path ts es f F S done h n). Qed.

(** *** The sample file meets the hypotheses *)
Definition sample_dir : bytes := Eval vm_compute in snd (nth 22 (writes_of sample_file) (0, [])).
Definition sample_hdr : bytes := Eval vm_compute in snd (nth 28 (writes_of sample_file) (0, [])).
Example sample_short : short_path path0.
Proof. vm_compute. discriminate. Qed.
Example sample_save : writes_of sample_file =
  firstn 22 (writes_of sample_file) ++ (directory_at path0, sample_dir) :: skipn 23 (writes_of sample_file).
Proof. vm_compute. reflexivity. Qed.
Example sample_rewrite : writes_of sample_file =
  firstn 27 (writes_of sample_file) ++ [(0, repeat 0 100); (0, sample_hdr)].
Proof. vm_compute. reflexivity. Qed.
(** The position of the keys, of the classes and their length. *)
Example sample_fields : field 26 4 sample_dir = [0; 0; 15; 183] /\ field 37 4 sample_hdr = [0; 0; 16; 92] /\
  field 41 4 sample_hdr = [0; 0; 38; 165].
Proof. vm_compute. repeat split. Qed.
(** So the torn saves of the sample: refused up to 28 bytes, whole from 30 on. *)
Example sample_torn_save :
  refused (disk_of (firstn 22 (writes_of sample_file) ++ [(directory_at path0, firstn 28 sample_dir)])) /\
  whole (disk_of (firstn 22 (writes_of sample_file) ++ [(directory_at path0, firstn 30 sample_dir)])) tables0.
Proof.
  split; eapply C51_torn_directory; try exact sample_finished; try exact sample_short; try exact sample_save;
    vm_compute; repeat constructor.
Qed.
(** A crash in the middle of the streamer record is neither of the two exceptions. *)
Example sample_neither : let done := firstn 24 (writes_of sample_file) in
  crash (writes_of sample_file) done /\ ~ position_torn path0 (writes_of sample_file) done /\
  ~ name_length_torn path0 (writes_of sample_file) done.
Proof.
  cbv zeta. split; [|split].
  - rewrite <- (firstn_skipn 24 (writes_of sample_file)) at 1. constructor.
  - intros (before & b & n & E & _). assert (L : last (firstn 24 (writes_of sample_file)) (0, []) = (directory_at path0, firstn n b))
      by (rewrite E; apply last_last).
    apply (f_equal fst) in L. revert L. vm_compute. discriminate.
  - intros (L & _). revert L. vm_compute. intros L. now apply L.
Qed.

(** *** The position of the keys can be torn *)

(** Without the exception the claim is false.  The program writes one tree, whose name ends
    in 15 bytes that look like the beginning of a record; the crash leaves three of the four
    bytes of the position of the keys, 767 becomes 512, and that is where the name ends.
    The file opens and shows no tree. *)
Definition torn_tables : list table := [Table (repeat 65 116 ++ [0; 0; 0; 0; 0; 1; 0; 0; 0; 4; 0; 66; 0; 0; 0]) []].
Definition torn_file : file := Eval vm_compute in fst (session real_db path0 (map calls torn_tables)).

Lemma torn_ran : session real_db path0 (map calls torn_tables) = (torn_file, Ok [[]]).
Proof. vm_cast_no_check (eq_refl (torn_file, @Ok (list (list (nat * event))) [[]])). Qed.

Lemma torn_finished : finished path0 torn_tables [[]] torn_file.
Proof.
  split; [split; sample|split; [unfold torn_tables; sample|split; [apply few_short; sample|split]]].
  - exact torn_ran.
  - vm_compute. discriminate.
Qed.

Definition torn_done : list (Z * bytes) := Eval vm_compute in
  firstn 8 (writes_of torn_file) ++ [(directory_at path0, firstn 29 (snd (nth 8 (writes_of torn_file) (0, []))))].

Lemma torn_empty : exists fo, open_file (disk_of torn_done) = Ok fo /\ keys_name fo = [].
Proof.
  remember (open_file (disk_of torn_done)) as o eqn:E. vm_compute in E. subst o. eexists. split; [reflexivity|]. vm_compute. reflexivity.
Qed.

Theorem C51_refused_or_whole_refuted : exists path ts es f done, finished path ts es f /\ short_path path /\
  crash (writes_of f) done /\ exists fo, open_file (disk_of done) = Ok fo /\ keys_name fo = [] /\ ts <> [] /\ ~ whole (disk_of done) ts.
Proof.
  exists path0, torn_tables, [[]], torn_file, torn_done. split; [exact torn_finished|]. split; [exact sample_short|]. split.
  - pose proof (crash_within (firstn 8 (writes_of torn_file)) (directory_at path0) (firstn 29 (snd (nth 8 (writes_of torn_file) (0, []))))
      (skipn 29 (snd (nth 8 (writes_of torn_file) (0, [])))) (skipn 9 (writes_of torn_file))) as C.
    rewrite firstn_skipn in C. replace (writes_of torn_file) with
      (firstn 8 (writes_of torn_file) ++ (directory_at path0, snd (nth 8 (writes_of torn_file) (0, []))) :: skipn 9 (writes_of torn_file)) at 1
      by (vm_compute; reflexivity).
    exact C.
  - destruct torn_empty as (fo & O & K). exists fo. split; [exact O|]. split; [exact K|]. split; [discriminate|].
    intros (fo' & O' & K' & _). rewrite O in O'. injection O' as <-. rewrite K in K'. discriminate.
Qed.
