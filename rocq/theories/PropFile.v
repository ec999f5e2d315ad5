(** Properties of files: what a finished file contains, what a crash leaves, what is
    refused. *)
From Verif Require Import Base Bytes RBuf WBuf Values Key Header Obj TreeObj File Column ColRead TreeWrite TreeSession StreamerDb
  Spec SpecTree FileFinal SessFacts FileMono Prog FileFacts Refused Sample.

(** ** C04, C17, C31: records *)

(** Every byte written after the directory belongs to one of a list of records that
    follow each other without gap up to the end of the file.  The header of each is as
    long as it says; header and payload are contiguous on disk. *)
Theorem C04_header_lengths path ts es f : finished path ts es f ->
  exists l, record_writes path (writes_of f) = puts l /\
    forall p h b k, In (p, h, b, k) l -> record p h b k /\ on_disk (f_disk f) p (h ++ b).
Proof.
  intros H. destruct (finished_closed _ _ _ _ H) as (keys & sbuf & recs & rest & C).
  destruct (fact_records _ _ _ _ _ _ _ _ C) as (l & E & R). exists l. split; [exact E|]. intros p h b k I.
  pose proof (record_nonempty _ _ _ _ (proj1 (records_in _ _ _ _ _ _ _ _ R I))) as N.
  destruct (fact_record _ _ _ _ _ _ _ _ C l p h b k E R I N) as (H1 & _ & _ & H2 & _). auto.
Qed.

Theorem C17_records_follow_each_other path ts es f : finished path ts es f ->
  exists l, record_writes path (writes_of f) = puts l /\ records (first_record path) (puts l) l (zlen (f_disk f)).
Proof.
  intros H. destruct (finished_closed _ _ _ _ H) as (keys & sbuf & recs & rest & C).
  exact (fact_records _ _ _ _ _ _ _ _ C).
Qed.

Theorem C17_records_never_overlap path ts es f : finished path ts es f ->
  in_order (record_writes path (writes_of f)) /\
  forall w, In w (record_writes path (writes_of f)) -> 100 <= fst w /\ fst w + zlen (snd w) <= zlen (f_disk f).
Proof.
  intros H. destruct (C17_records_follow_each_other _ _ _ _ H) as (l & E & R). rewrite E.
  split; [exact (records_order _ _ _ _ R)|]. intros w I. destruct (records_ge _ _ _ _ R) as [_ F].
  rewrite Forall_forall in F. specialize (F _ I). unfold first_record, directory_at, string_size in F.
  pose proof (zlen_nonneg path). destruct (zlen path <? 255); lia.
Qed.

(** Once written, a record keeps its bytes: after any number of further writes. *)
Theorem C17_records_keep_their_bytes path ts es f done more w : finished path ts es f ->
  writes_of f = done ++ more -> In w (record_writes path done) -> snd w <> [] -> on_disk (disk_of done) (fst w) (snd w).
Proof.
  intros H E I N. destruct (finished_closed _ _ _ _ H) as (keys & sbuf & recs & rest & C).
  apply filter_In in I as [I G]. apply Z.leb_le in G. exact (fact_kept _ _ _ _ _ _ _ _ C done more w E I G N).
Qed.

Theorem C31_stored_uncompressed path ts es f : finished path ts es f ->
  exists l, record_writes path (writes_of f) = puts l /\
    forall p h b k, In (p, h, b, k) l -> k_objlen k = k_nbytes k - k_keylen k /\ key_bytes (f_disk f) k = Ok b.
Proof.
  intros H. destruct (finished_closed _ _ _ _ H) as (keys & sbuf & recs & rest & C).
  destruct (fact_records _ _ _ _ _ _ _ _ C) as (l & E & R). exists l. split; [exact E|]. intros p h b k I.
  pose proof (record_nonempty _ _ _ _ (proj1 (records_in _ _ _ _ _ _ _ _ R I))) as N.
  destruct (fact_record _ _ _ _ _ _ _ _ C l p h b k E R I N) as (H1 & _ & _ & _ & H2). split; [|exact H2].
  destruct H1 as (w & x & -> & _ & _ & _ & -> & -> & ->). lia.
Qed.

Example sample_records : length (record_writes path0 (writes_of sample_file)) = 22%nat.
Proof. vm_compute. reflexivity. Qed.

(** ** C16: cycles *)

(** Among trees of the same name the later one has the larger cycle, and it is the one
    that is found. *)
Theorem C16_newest_cycle_wins path ts es f : finished path ts es f -> short_path path ->
  exists fo, open_file (f_disk f) = Ok fo /\
    map k_name (d_keys (f_dir fo)) = map tb_name ts /\
    (forall a k b k' c, d_keys (f_dir fo) = a ++ k :: b ++ k' :: c -> k_name k = k_name k' -> k_cycle k < k_cycle k') /\
    (forall earlier t later, ts = earlier ++ t :: later -> (forall t', In t' later -> tb_name t' <> tb_name t) ->
       ~ In 59 (tb_name t) -> exists r, get_tree fo (tb_name t) = Ok r /\ shows_table fo t r).
Proof.
  intros H Sh. destruct (finished_closed _ _ _ _ H) as (keys & sbuf & recs & rest & C).
  destruct (cd_open _ _ _ _ _ _ _ _ C Sh) as (fo & O1 & _ & _ & _ & O5 & O6). exists fo. split; [exact O1|].
  destruct O6 as (N & G & _). split; [exact N|]. split; [|exact G].
  intros a k b k' c E Nk. rewrite O5 in E. pose proof (cd_incr _ _ _ _ _ _ _ _ C) as I.
  apply map_eq_app in E as (a1 & r1 & -> & <- & E). destruct r1 as [|k1 r1]; [discriminate|].
  cbn [map] in E. injection E as E1 E. apply map_eq_app in E as (b1 & r2 & -> & <- & E). destruct r2 as [|k2 r2]; [discriminate|].
  cbn [map] in E. injection E as E2 _. specialize (I (a1 ++ k1 :: b1) k2 r2).
  rewrite <- app_assoc in I. specialize (I eq_refl). rewrite Forall_forall in I. specialize (I k1).
  subst k k'. rewrite (proj1 (listed_same k1)), (proj1 (listed_same k2)) in Nk. rewrite (proj2 (listed_same k1)), (proj2 (listed_same k2)).
  apply I; [|exact Nk]. apply in_or_app. right. now left.
Qed.

(** ** C18, C19: crashes *)

(** Until the directory is being saved, whatever was written, the file is not accepted. *)
Theorem C18_unsaved_file_is_refused path ts es f done : finished path ts es f ->
  crash (writes_of f) done -> ~ save_begun path done -> refused (disk_of done).
Proof.
  intros H. destruct (finished_closed _ _ _ _ H) as (keys & sbuf & recs & rest & C).
  exact (fact_refused _ _ _ _ _ _ _ _ C done).
Qed.

(** From then on until the header is rewritten, the file opens and shows everything. *)
Theorem C19_saved_file_opens path ts es f done : finished path ts es f -> short_path path ->
  crash (writes_of f) done -> save_complete path (writes_of f) done -> ~ header_rewrite_begun done ->
  exists fo, open_file (disk_of done) = Ok fo /\ shows_tables fo ts.
Proof.
  intros H. destruct (finished_closed _ _ _ _ H) as (keys & sbuf & recs & rest & C).
  exact (fact_window _ _ _ _ _ _ _ _ C done).
Qed.

(** But the header is first blanked and then rewritten: a crash just before the very last
    write loses the file, for every program. *)
Theorem C19_last_write_refuted path ts es f done last : finished path ts es f ->
  writes_of f = done ++ [last] -> open_file (disk_of done) = Panic.
Proof.
  intros H. destruct (finished_closed _ _ _ _ H) as (keys & sbuf & recs & rest & C).
  exact (fact_blank _ _ _ _ _ _ _ _ C done last).
Qed.

Example sample_unsaved : let done := firstn 18 (writes_of sample_file) in
  crash (writes_of sample_file) done /\ ~ save_begun path0 done /\ length (record_writes path0 done) = 14%nat.
Proof.
  cbv zeta. split; [|split].
  - rewrite <- (firstn_skipn 18 (writes_of sample_file)) at 1. constructor.
  - vm_compute. intuition discriminate.
  - vm_compute. reflexivity.
Qed.
Example sample_saved : let done := firstn 24 (writes_of sample_file) in
  crash (writes_of sample_file) done /\ save_complete path0 (writes_of sample_file) done /\ ~ header_rewrite_begun done.
Proof.
  cbv zeta. split; [|split].
  - rewrite <- (firstn_skipn 24 (writes_of sample_file)) at 1. constructor.
  - exists (snd (nth 22 (writes_of sample_file) (0, []))). split.
    + vm_compute. do 22 right. left. reflexivity.
    + vm_compute. do 22 right. left. reflexivity.
  - vm_compute. lia.
Qed.

(** ** C20: what [close] leaves *)

(** The header of a closed file gives the exact length of the file and places where the
    class descriptions and the free segment really are; they are the last two records,
    and the free segment begins at the end of the file. *)
Theorem C20_close_is_consistent path ts es f : finished path ts es f -> short_path path ->
  exists fo, open_file (f_disk f) = Ok fo /\
  fh_end (f_hdr fo) = zlen (f_disk f) /\
  f_spans fo = [mkSeg (zlen (f_disk f)) 2000000000] /\
  first_record path <= fh_seekinfo (f_hdr fo) /\
  fh_seekinfo (f_hdr fo) + fh_nbinfo (f_hdr fo) = fh_seekfree (f_hdr fo) /\
  fh_seekfree (f_hdr fo) + fh_nbfree (f_hdr fo) = zlen (f_disk f) /\
  (exists h b k, record (fh_seekinfo (f_hdr fo)) h b k /\ k_class k = bs "TList" /\ k_name k = bs "StreamerInfo" /\
     fh_nbinfo (f_hdr fo) = zlen h + zlen b /\ on_disk (f_disk f) (fh_seekinfo (f_hdr fo)) (h ++ b)) /\
  (exists h b k, record (fh_seekfree (f_hdr fo)) h b k /\ k_class k = bs "TFile" /\ k_name k = path /\
     fh_nbfree (f_hdr fo) = zlen h + zlen b /\ on_disk (f_disk f) (fh_seekfree (f_hdr fo)) (h ++ b)).
Proof.
  intros H. destruct (finished_closed _ _ _ _ H) as (keys & sbuf & recs & rest & C).
  exact (fact_close _ _ _ _ _ _ _ _ C).
Qed.

(** ** C21: wrong mode *)

(** Writing a tree to a file opened for reading never succeeds and leaves the disk
    alone; if it would have succeeded on a writable file the error is [EReadOnly]. *)
Theorem C21_read_only_file_is_not_written fo d p : f_io fo = IORead d ->
  f_disk (fst (write_one real_db p fo)) = d /\
  (forall es, snd (write_one real_db p fo) <> Ok es) /\
  (forall log es, snd (write_one real_db p (f_set_io fo (IOWrite log))) = Ok es -> snd (write_one real_db p fo) = Err EReadOnly).
Proof. apply read_only; [apply fp_write_one|apply must_write_one]. Qed.

(** The same for a single object. *)
Theorem C21_read_only_file_takes_no_object fo d name o : f_io fo = IORead d ->
  f_disk (fst (put_obj real_db name o fo)) = d /\
  (forall u, snd (put_obj real_db name o fo) <> Ok u) /\
  (forall log u, snd (put_obj real_db name o (f_set_io fo (IOWrite log))) = Ok u -> snd (put_obj real_db name o fo) = Err EReadOnly).
Proof. apply read_only; [apply fp_put|apply must_put]. Qed.

(** On a file opened for reading the list of objects stays as it was, and every object
    reads as before. *)
Definition keeps_reader {A} (m : FM A) : Prop := forall f d, f_io f = IORead d ->
  f_dir (fst (m f)) = f_dir f /\ f_io (fst (m f)) = IORead d.
Lemma kr_of {A} (m : FM A) : mono m -> keeps_dir m -> keeps_reader m.
Proof. intros M K f d E. split; [apply K|]. specialize (M f). rewrite E in M. exact M. Qed.
Lemma kr_bind {A B} (m : FM A) (k : A -> FM B) : keeps_reader m -> (forall a, keeps_reader (k a)) -> keeps_reader (fbind m k).
Proof.
  intros H K f d E. unfold fbind. destruct (H f d E) as [H1 H2]. destruct (m f) as [f1 [a| | | |]]; cbn [fst] in *; auto.
  destruct (K a f1 d H2) as [K1 K2]. split; congruence.
Qed.
Lemma kr_stop {A B} (m : FM A) (k : A -> FM B) : keeps_reader m -> must_write m -> keeps_reader (fbind m k).
Proof.
  intros H W f d E. unfold fbind. destruct (H f d E) as [H1 H2]. specialize (W f d).
  replace (f_set_io f (IORead d)) with f in W by (destruct f; cbn in *; now subst).
  destruct (m f) as [f1 [a| | | |]]; cbn [fst] in *; auto. now destruct (W a f1).
Qed.
Lemma kd_put_start (o : wobj) : keeps_dir (if is_core_type (o_cls o) then fret tt
   else match real_db (o_cls o) (o_vers o) with None => flift Panic | Some si => add_sinfo si end).
Proof.
  apply kd_if; [apply kd_ret|]. destruct (real_db _ _); [|apply kd_lift]. apply kd_modify. intros f. now destruct (existsb _ _).
Qed.
Lemma kd_key_from_object n t c m : keeps_dir (key_from_object n t c m).
Proof. unfold key_from_object. apply kd_bind; [apply kd_gets|intros]. apply kd_bind; [apply kd_lift|intros]. apply kd_key_from. Qed.
Lemma kr_put name o : keeps_reader (put_obj real_db name o).
Proof.
  unfold put_obj. destruct (existsb _ name); [apply kr_of; [mono|apply kd_lift]|]. cbv zeta.
  apply kr_bind; [apply kr_of; [mono|apply kd_gets]|intros ks].
  apply kr_bind; [apply kr_of; [mono|apply kd_lift]|intros cy].
  apply kr_bind; [apply kr_of; [mono|apply kd_lift]|intros cy'].
  apply kr_bind; [apply kr_of; [mono|apply kd_put_start]|intros []].
  apply kr_bind; [apply kr_of; [mono|apply kd_key_from_object]|intros k].
  apply kr_stop; [apply kr_of; [mono|apply kd_key_write]|apply must_key_write].
Qed.
Lemma kr_write_one p : keeps_reader (write_one real_db p).
Proof.
  unfold write_one. apply kr_bind; [apply kr_of; [mono|apply kd_lift]|intros w].
  apply kr_bind; [|intros w'; apply kr_of; [mono|apply kd_ret]].
  unfold tree_write. cbv zeta. apply kr_bind; [apply kr_of; [mono|apply kd_write_rows]|intros [[t' cols] ev]].
  apply kr_stop; [|apply must_tree_close].
  unfold tree_close. apply kr_bind; [apply kr_of; [mono|apply kd_flush_all]|intros cols'].
  apply kr_stop; [apply kr_put|apply must_put].
Qed.
Lemma same_reads {L : decoders} f f' d : f_io f = IORead d -> f_dir f' = f_dir f -> f_io f' = IORead d ->
  keys_name f' = keys_name f /\ (forall name, get_object f' name = get_object f name) /\
  (forall name, get_tree f' name = get_tree f name).
Proof.
  intros E1 E2 E3. assert (G : forall name, get_object f' name = get_object f name).
  { intros name. unfold get_object, freader. now rewrite E1, E2, E3. }
  split; [unfold keys_name; now rewrite E2|]. split; [exact G|]. intros name. unfold get_tree. now rewrite G.
Qed.
Theorem C21_refused_writes_do_not_change_reading {L : decoders} fo d : f_io fo = IORead d ->
  (forall p, let f' := fst (write_one real_db p fo) in
     keys_name f' = keys_name fo /\ (forall name, get_object f' name = get_object fo name) /\
     (forall name, get_tree f' name = get_tree fo name)) /\
  (forall n o, let f' := fst (put_obj real_db n o fo) in
     keys_name f' = keys_name fo /\ (forall name, get_object f' name = get_object fo name) /\
     (forall name, get_tree f' name = get_tree fo name)).
Proof.
  intros E. split; intros; cbv zeta.
  - destruct (kr_write_one p fo d E). now apply same_reads with d.
  - destruct (kr_put n o fo d E). now apply same_reads with d.
Qed.

(** Reading from a file that is being written is an error; it cannot change the file. *)
Theorem C21_write_only_file_is_not_read f log name : f_io f = IOWrite log -> get_tree f name = Err EWriteOnly.
Proof. intros E. unfold get_tree, get_object, freader. now rewrite E. Qed.

Example read_only_sample : exists fo, open_file (f_disk sample_file) = Ok fo /\ f_io fo = IORead (f_disk sample_file).
Proof.
  destruct (finished_closed _ _ _ _ sample_finished) as (keys & sbuf & recs & rest & C).
  destruct (cd_open _ _ _ _ _ _ _ _ C ltac:(vm_compute; discriminate)) as (fo & O & _). exists fo. split; [exact O|exact (open_io _ _ O)].
Qed.

(** ** C22: refused names *)

Theorem C22_slash_is_refused db name o f : In 47 name -> put_obj db name o f = (f, Err ENameSlash).
Proof. apply put_slash. Qed.

Theorem C22_other_class_is_refused db name o f k : name <> [] -> ~ In 47 name ->
  In k (d_keys (f_dir f)) -> k_name k = name -> k_class k <> o_cls o -> put_obj db name o f = (f, Err EKeyClassMismatch).
Proof. apply put_clash. Qed.

(** A whole tree with such a name: it is never written and the directory stays as it is. *)
Theorem C22_tree_with_slash_is_refused f p : In 47 (tp_name p) ->
  f_dir (fst (write_one real_db p f)) = f_dir f /\ (forall es, snd (write_one real_db p f) <> Ok es).
Proof. apply tree_slash. Qed.

(** But the disk does not: the columns are written before the name is looked at. *)
Definition slash_table : table := Table (bs "a/b") [AddColumn (Column (bs "x") (TPrim U8) [VInt 7])].
Theorem C22_tree_with_slash_writes_refuted : exists f p, In 47 (tp_name p) /\ create path0 = (f, Ok tt) /\
  snd (write_one real_db p f) = Err ENameSlash /\ f_disk (fst (write_one real_db p f)) <> f_disk f.
Proof.
  exists (fst (create path0)), (calls slash_table). split; [vm_compute; tauto|]. split; [vm_compute; reflexivity|].
  split; [vm_compute; reflexivity|]. intros E. apply (f_equal (@length Z)) in E. vm_compute in E. congruence.
Qed.

Example clash_sample : exists k, In k (d_keys (f_dir sample_file)) /\ k_name k = bs "t2" /\ k_class k <> bs "TList".
Proof. eexists. split; [vm_compute; right; left; reflexivity|]. split; [reflexivity|discriminate]. Qed.

(** ** C40: paths *)

Theorem C40_which_paths_can_be_reopened path ts es f : finished path ts es f ->
  ((exists fo, open_file (f_disk f) = Ok fo) <-> zlen path <= 478) /\
  (478 < zlen path -> open_file (f_disk f) = Err EDirInfo).
Proof.
  intros H. destruct (finished_closed _ _ _ _ H) as (keys & sbuf & recs & rest & C).
  assert (L : ~ short_path path -> open_file (f_disk f) = Err EDirInfo) by exact (fact_long _ _ _ _ _ _ _ _ C).
  split; [split|].
  - intros (fo & O). destruct (Z_le_gt_dec (zlen path) 478) as [x|x]; [exact x|]. rewrite L in O; [discriminate|]. unfold short_path. lia.
  - intros S. destruct (cd_open _ _ _ _ _ _ _ _ C S) as (fo & O & _). now exists fo.
  - intros N. apply L. unfold short_path. lia.
Qed.

Definition long_path : bytes := repeat 97 479.
Definition long_file : file := Eval vm_compute in fst (session real_db long_path []).
Example long_path_finished : finished long_path [] [] long_file.
Proof.
  split; [split; sample|split; [constructor|split; [apply few_short; sample|split]]].
  - vm_cast_no_check (eq_refl (long_file, @Ok (list (list (nat * event))) [])).
  - vm_compute. discriminate.
Qed.

(** ** C41: short and foreign files *)

Theorem C41_short_file_is_an_error d : zlen d < 76 -> open_file d = Err EIo.
Proof. apply short_refused. Qed.

Theorem C41_foreign_file_is_not_opened d : firstn 4 d <> bs "root" -> refused d.
Proof.
  intros N. destruct (Z_lt_ge_dec (zlen d) 76) as [L|L]; intros f.
  - rewrite short_refused by exact L. discriminate.
  - rewrite foreign_panics by (exact N || lia). discriminate.
Qed.

(** It is not an error either: the program is aborted. *)
Theorem C41_foreign_file_error_refuted d : 76 <= zlen d -> firstn 4 d <> bs "root" -> open_file d = Panic.
Proof. apply foreign_panics. Qed.

Example foreign_sample : exists d, zlen d = 100 /\ firstn 4 d <> bs "root".
Proof. exists (repeat 80 100). split; [reflexivity|vm_compute; discriminate]. Qed.

