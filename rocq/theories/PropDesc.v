(** Properties of the class descriptions in a file: the tree records are what a reader
    that works from class descriptions expects. *)
From Verif Require Import Base Bytes RBuf Key Obj Streamer RObj Header File FileOpen StreamerDb SpecTree SpecDesc FileFacts DescSess DescFile Sample SampleOpen PropCrash.

(** Every tree of a finished file (in the order of writing, the shadowed ones included)
    is stored in a record that the description-driven reader of SpecDesc.v reads to the
    last byte: byte counts, class versions, members and references are as ROOT wants
    them, and what it finds is what the library's own reader finds.  It takes the
    descriptions from the file, and those of the leaves and of [TBranchElement] from the
    library's table, as the file does not hold them. *)
Theorem C52_tree_records_conform path ts es f fo : finished path ts es f -> short_path path -> open_file (f_disk f) = Ok fo ->
  Forall2 (fun t k =>
    k_class k = bs "TTree" /\
    exists r, key_object (f_disk fo) k = Ok (OTree r) /\ shows_table fo t r /\
      (k_nbytes k < 2 ^ 30 ->
       decode (described_in (f_sinfos fo ++ filter is_left_out StreamerDb.table)) (k_keylen k) (k_class k) (payload (f_disk fo) k)
       = Some (v_tree r)))
    ts (d_keys (f_dir fo)).
Proof.
  intros F S O. pose proof (records_conform _ _ _ _ _ F S O) as H. clear F S O. induction H as [|t k ts' ks (r & H1 & H2 & H3 & H4) _ IH]; [constructor|constructor; [|exact IH]].
  split; [exact H3|]. exists r. split; [exact H1|]. split; [exact H2|]. intros L. apply H4. exact L.
Qed.

(** With the descriptions of the file alone, no tree that has a column can be read that
    way: its leaves are not described. *)
Theorem C52_described_by_itself_refuted path ts es f fo : finished path ts es f -> short_path path -> open_file (f_disk f) = Ok fo ->
  Forall2 (fun t k => columns (tb_setup t) <> [] -> k_nbytes k < 2 ^ 30 ->
      decode (described_in (f_sinfos fo)) (k_keylen k) (k_class k) (payload (f_disk fo) k) = None)
    ts (d_keys (f_dir fo)).
Proof.
  intros F S O. pose proof (records_conform _ _ _ _ _ F S O) as H. clear F S O. induction H as [|t k ts' ks (r & H1 & H2 & H3 & H4) _ IH]; [constructor|constructor; [|exact IH]].
  intros C L. apply H4; [exact L|exact C].
Qed.

(** Which descriptions a file holds: with a tree in it, those of [with_tree], with the
    members the library's table gives the classes; those of [left_out] never. *)
Theorem C52_descriptions_of_a_file path ts es f fo c : finished path ts es f -> short_path path -> open_file (f_disk f) = Ok fo ->
  (ts <> [] -> In c with_tree ->
     (exists s, In s (f_sinfos fo) /\ si_name s = c) /\ described_in (f_sinfos fo) c = described_in StreamerDb.table c) /\
  (In c left_out -> ~ exists s, In s (f_sinfos fo) /\ si_name s = c).
Proof.
  intros F S O. pose proof (open_sis _ _ _ _ _ F S O) as D. split.
  - intros N I. destruct (found_dep _ _ D c N I) as (s & E & EN & ED). split.
    + exists s. split; [now apply find_some in E as (E & _)|exact EN].
    + unfold described_in at 1. rewrite E. exact ED.
  - intros I (s & I1 & I2). pose proof (found_not _ _ D c I) as N. apply (find_none _ _ N) in I1. rewrite I2, beqb_refl in I1. discriminate.
Qed.

(** The sample file: three trees, five columns, all below the limit. *)
Example sample_described : exists fo, open_file (f_disk sample_file) = Ok fo /\ Forall (fun k => k_nbytes k < 2 ^ 30) (d_keys (f_dir fo)) /\
  map (fun t => length (columns (tb_setup t))) tables0 = [4; 0; 1]%nat.
Proof.
  exists sample_opened. split; [exact sample_opens|]. split; [|reflexivity].
  cbn [sample_opened f_dir d_keys]. repeat (apply Forall_cons; [reflexivity|]). apply Forall_nil.
Qed.
(** The descriptions of a file with a tree in it refer to each other and to nothing else. *)
Lemma deps_closed : forallb (fun s => forallb (fun el => forallb (fun c => existsb (beqb c) (built_in ++ deps_names)) (refers el)) (si_elems (sinfo_seen s))) (tree_deps ++ RoomFwd.vec_sis) = true.
Proof. vm_compute. reflexivity. Qed.
Theorem C52_descriptions_are_closed path ts es f fo s el c : finished path ts es f -> short_path path -> open_file (f_disk f) = Ok fo -> ts <> [] ->
  In s (f_sinfos fo) -> In el (si_elems s) -> In c (refers el) ->
  In c built_in \/ exists s', In s' (f_sinfos fo) /\ si_name s' = c.
Proof.
  intros F S O N I1 I2 I3. destruct (open_sis _ _ _ _ _ F S O) as (A & B). specialize (B N).
  destruct (A s I1) as (s0 & -> & K). pose proof deps_closed as D. rewrite forallb_forall in D. specialize (D s0 (proj2 (in_app_iff _ _ _) K)).
  rewrite forallb_forall in D. specialize (D el I2). rewrite forallb_forall in D. specialize (D c I3). apply in_names, in_app_or in D as [D|D]; [now left|right].
  destruct deps_with_tree as (DN & _). rewrite DN in D. apply in_map_iff in D as (s1 & E & J). exists (sinfo_seen s1). split; [now apply B|]. now rewrite seen_name.
Qed.
Example sample_listed : In (bs "TBranch") with_tree /\ In (bs "TLeafI") left_out /\ In (bs "TBranchElement") left_out.
Proof. vm_compute. tauto. Qed.
Example sample_refers fo : open_file (f_disk sample_file) = Ok fo ->
  exists s el, In s (f_sinfos fo) /\ si_name s = bs "TSeqCollection" /\ In el (si_elems s) /\ refers el = [bs "TCollection"].
Proof.
  intros O. destruct (open_sis _ _ _ _ _ sample_finished sample_short O) as (_ & B).
  assert (E : existsb (fun s => beqb (si_name (sinfo_seen s)) (bs "TSeqCollection") && match si_elems (sinfo_seen s) with el :: _ => match refers el with [c] => beqb c (bs "TCollection") | _ => false end | [] => false end) tree_deps = true) by (vm_compute; reflexivity).
  apply existsb_exists in E as (s & I & E). apply andb_true_iff in E as (E1 & E2). apply beqb_eq in E1. destruct (si_elems (sinfo_seen s)) as [|el l] eqn:EL; [discriminate E2|].
  exists (sinfo_seen s), el. split; [apply B; [discriminate|exact I]|]. split; [exact E1|]. split; [rewrite EL; now left|].
  destruct (refers el) as [|c [|? ?]]; [discriminate E2| |discriminate E2]. apply beqb_eq in E2. rewrite E2. reflexivity.
Qed.
