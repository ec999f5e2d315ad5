(** Properties of trees: what was written is what reading shows. *)
From Verif Require Import Base Bytes Utf8 RBuf WBuf Values Key Header Obj TreeObj File Column ColRead ColOps RObj TreeWrite TreeSession StreamerDb
  Spec SpecTree SessFacts FileFacts TreeFacts Sample.

(** ** C13: a whole file *)

(** After the program has finished the file opens and shows exactly the tables that were
    written (see [shows_tables]: names, order, entries, columns, values). *)
Theorem C13_file_gives_back_its_tables path ts es f : finished path ts es f -> short_path path ->
  exists fo, open_file (f_disk f) = Ok fo /\ shows_tables fo ts.
Proof.
  intros H S. destruct (finished_closed _ _ _ _ H) as (keys & sbuf & recs & rest & C).
  destruct (cd_open _ _ _ _ _ _ _ _ C S) as (fo & O & _ & _ & _ & _ & T). eauto.
Qed.

(** ** C11, C12, C14, C25: columns *)

(** [t] is the last table of its name in the list. *)
Definition visible (ts : list table) (t : table) : Prop :=
  exists earlier later, ts = earlier ++ t :: later /\ (forall t', In t' later -> tb_name t' <> tb_name t) /\ ~ In 59 (tb_name t).

(** Every column is there, under its name, and iterating over it yields exactly the
    values it was given. *)
Theorem C12_columns_give_back_their_values path ts es f t : finished path ts es f -> short_path path -> visible ts t ->
  exists fo r, open_file (f_disk f) = Ok fo /\ get_tree fo (tb_name t) = Ok r /\
    Forall2 (fun c b => br_name b = c_name c /\ (column_readable c -> values_of fo (c_type c) b = Ok (c_values c)))
      (columns (tb_setup t)) (t_branches r).
Proof.
  intros H S (a & b & E & L & N). destruct (C13_file_gives_back_its_tables _ _ _ _ H S) as (fo & O & _ & G & _).
  destruct (G a t b E L N) as (r & R & _ & _ & F). exists fo, r. split; [exact O|]. split; [exact R|].
  eapply Forall2_in; [|exact F]. intros c x _ (H1 & _ & _ & H2 & _). split; [exact H1|]. intros [R1 R2]. now apply (H2 R1).
Qed.

(** ** C39: the limit of vector entries *)

(** A vector column is given back if and only if every entry fits (see [vector_fits]). *)
Theorem C39_vector_limit_is_exact path ts es f t : finished path ts es f -> short_path path -> visible ts t ->
  exists fo r, open_file (f_disk f) = Ok fo /\ get_tree fo (tb_name t) = Ok r /\
    Forall2 (fun c b => no_bracket (c_name c) ->
        (values_of fo (c_type c) b = Ok (c_values c) <-> Forall (vector_fits (c_type c)) (c_values c)))
      (columns (tb_setup t)) (t_branches r).
Proof.
  intros H S (a & b & E & L & N). destruct (C13_file_gives_back_its_tables _ _ _ _ H S) as (fo & O & _ & G & _).
  destruct (G a t b E L N) as (r & R & _ & _ & F). exists fo, r. split; [exact O|]. split; [exact R|].
  eapply Forall2_in; [|exact F]. intros c x _ (H1 & _ & _ & H2 & _) R1. now apply (H2 R1).
Qed.

(** Entries of less than 2^24 bytes always fit; the first size that does not. *)
Example vector_fits_small p l : 6 + Z.of_nat (scalar_bytes p) * zlen l < 2 ^ 24 -> vector_fits (TVec (TPrim p)) (VList l).
Proof. intros H. pose proof (zlen_nonneg l). cbn [vector_fits]. rewrite Z.mod_small; lia. Qed.
Example vector_too_long : ~ vector_fits (TVec (TPrim I8)) (VList (repeat (VInt 0) (Z.to_nat (2 ^ 24 - 6)))).
Proof.
  cbn [vector_fits]. rewrite zlen_def, repeat_length. change (Z.of_nat (scalar_bytes I8)) with 1.
  rewrite Z2Nat.id by (vm_compute; discriminate). vm_compute. intros H; discriminate H.
Qed.

(** A long string followed by many short ones: the writer panics, although every value
    is acceptable on its own. *)
Definition long_then_short : list table :=
  [Table (bs "t") [AddColumn (Column (bs "s") TString (VStr (repeat 97 2000) :: repeat (VStr []) 1001))]].
Theorem C39_long_then_short_refuted : Forall table_ok long_then_short /\
  snd (session real_db path0 (map calls long_then_short)) = Panic.
Proof.
  split; [|vm_compute; reflexivity]. constructor; [|constructor]. split; [sample|]. split; [sample|].
  cbn [columns tb_setup tb_name long_then_short]. constructor; [|constructor]. split; [exact I|]. split; [sample|]. split; [sample|].
  cbn [c_values c_type]. constructor; [constructor; sample|].
  apply Forall_forall. intros v Hv. apply repeat_spec in Hv. subst v. constructor. sample.
Qed.

(** Each basket on its own gives back the entries it was given. *)
Theorem C11_baskets_give_back_their_entries path ts es f t : finished path ts es f -> short_path path -> visible ts t ->
  exists fo r, open_file (f_disk f) = Ok fo /\ get_tree fo (tb_name t) = Ok r /\
    Forall2 (shows_baskets fo) (columns (tb_setup t)) (t_branches r).
Proof.
  intros H S (a & b & E & L & N). destruct (C13_file_gives_back_its_tables _ _ _ _ H S) as (fo & O & _ & G & _).
  destruct (G a t b E L N) as (r & R & _ & _ & F). exists fo, r. split; [exact O|]. split; [exact R|].
  eapply Forall2_in; [|exact F]. intros c x _ (_ & _ & _ & _ & _ & _ & H2). exact H2.
Qed.

Theorem C14_tree_is_as_long_as_its_longest_column path ts es f t : finished path ts es f -> short_path path -> visible ts t ->
  exists fo r, open_file (f_disk f) = Ok fo /\ get_tree fo (tb_name t) = Ok r /\
    (forall c, In c (columns (tb_setup t)) -> zlen (c_values c) <= t_entries r) /\
    (t_entries r = 0 \/ exists c, In c (columns (tb_setup t)) /\ t_entries r = zlen (c_values c)) /\
    map (fun b => b_entries (br_core b)) (t_branches r) = map (fun c => zlen (c_values c)) (columns (tb_setup t)).
Proof.
  intros H S (a & b & E & L & N). destruct (C13_file_gives_back_its_tables _ _ _ _ H S) as (fo & O & _ & G & _).
  destruct (G a t b E L N) as (r & R & _ & T & F). exists fo, r. split; [exact O|]. split; [exact R|]. rewrite T.
  split; [|split].
  - intros c I. apply longest_ge in I. rewrite zlen_def. lia.
  - destruct (longest_in (columns (tb_setup t))) as [Z|(c & I & Z)]; [left; lia|right]. exists c. split; [exact I|]. rewrite zlen_def. lia.
  - clear - F. induction F as [|c x l m (_ & _ & H & _) F IH]; [reflexivity|]. cbn [map]. now rewrite H, IH.
Qed.

(** Whatever type is asked for, the answer is a type mismatch exactly when it is not the
    type of the column. *)
Theorem C25_only_the_own_type_reads path ts es f t : finished path ts es f -> short_path path -> visible ts t ->
  exists fo r, open_file (f_disk f) = Ok fo /\ get_tree fo (tb_name t) = Ok r /\
    Forall2 (fun c b => no_bracket (c_name c) ->
        (Forall (vector_fits (c_type c)) (c_values c) -> values_of fo (c_type c) b = Ok (c_values c)) /\
        (forall u, values_of fo u b = Err ETypeMismatch <-> u <> c_type c))
      (columns (tb_setup t)) (t_branches r).
Proof.
  intros H S (a & b & E & L & N). destruct (C13_file_gives_back_its_tables _ _ _ _ H S) as (fo & O & _ & G & _).
  destruct (G a t b E L N) as (r & R & _ & _ & F). exists fo, r. split; [exact O|]. split; [exact R|].
  eapply Forall2_in; [|exact F]. intros c x _ (_ & _ & _ & H2 & H3 & _) R1. destruct (H2 R1) as [H4 H5]. split; [apply H4|].
  intros u. split; [|now apply H3]. intros X ->. now apply (H5 ETypeMismatch).
Qed.

(** ** C15: callbacks *)

Theorem C15_callbacks_hear_every_row path ts es f : finished path ts es f -> es = map heard ts.
Proof.
  intros H. destruct (finished_closed _ _ _ _ H) as (keys & sbuf & recs & rest & C). exact (cd_events _ _ _ _ _ _ _ _ C).
Qed.

(** The third kind of notification is never sent, whatever is written. *)
Theorem C15_after_is_never_heard path ts es f e i : finished path ts es f -> In e es -> ~ In (i, EvAfter) e.
Proof.
  intros H He Hi. rewrite (C15_callbacks_hear_every_row _ _ _ _ H) in He.
  apply in_map_iff in He as (t & <- & _). unfold heard in Hi.
  apply in_concat in Hi as (r & Hr & Hi). apply repeat_spec in Hr. subst r.
  unfold one_round in Hi. apply in_app_or in Hi as [Hi|Hi].
  - unfold all_hear in Hi. apply in_map_iff in Hi as (x & X & _). discriminate X.
  - apply in_flat_map in Hi as (c & _ & Hi). unfold all_hear in Hi. apply in_map_iff in Hi as (x & X & _). discriminate X.
Qed.

(** ** C26: branches by name *)

(** In any tree, nested to any depth. *)
Theorem C26_lookup_is_first_in_order (t : tree branch) name :
  tree_branch t name = find (fun b => beqb (br_name b) name) (tree_branches_r t).
Proof. apply tree_branch_first. Qed.

Theorem C26_lookup_in_a_branch (b : branch) name :
  find_branch name b = find (fun x => beqb (br_name x) name) (branches_r b).
Proof. apply find_branch_first. Qed.

(** ** The hypotheses are met *)
Example visible0 : exists t, visible tables0 t /\ columns (tb_setup t) <> [].
Proof.
  exists (nth 2 tables0 (Table [] [])). split; [exists [nth 0 tables0 (Table [] []); nth 1 tables0 (Table [] [])], []|]; [|discriminate].
  split; [reflexivity|]. split; [intros t' []|]. vm_compute. intuition discriminate.
Qed.
Example readable0 : Forall column_readable (flat_map (fun t => columns (tb_setup t)) tables0).
Proof.
  unfold tables0. cbn [flat_map columns tb_setup app].
  repeat (apply Forall_cons; [split; [split; vm_compute; intuition discriminate|repeat constructor]|]). constructor.
Qed.
(** The whole of C13 on a concrete file: it has two visible tables, one hidden. *)
Example tables_back0 : exists fo, open_file (f_disk sample_file) = Ok fo /\ shows_tables fo tables0.
Proof. apply (C13_file_gives_back_its_tables path0 tables0 heard0); [apply sample_finished|vm_compute; discriminate]. Qed.
Example heard_some0 : map (@length _) heard0 = [20; 0; 0]%nat.
Proof. vm_compute. reflexivity. Qed.
(** A forest with two branches of the same name at different depths. *)
Definition bare (name : bytes) (subs : list branch) : branch :=
  Br true (ccore name (TPrim I32) 0 0 0 0 [] [] []) None subs [] [].
Definition forest0 : tree branch :=
  mkTree (new_named (bs "t") []) attline_default attfill_default attmarker_default
    0 0 0 0 0 0 0 25 0 1000 0 0 0 0 0 0 [] [] 0 [bare (bs "a") [bare (bs "x") [bare (bs "y") []]]; bare (bs "x") []].
Example lookup0 : map br_name (tree_branches_r forest0) = [bs "a"; bs "x"; bs "y"; bs "x"] /\
  tree_branch forest0 (bs "x") = Some (bare (bs "x") [bare (bs "y") []]) /\
  tree_branch forest0 (bs "y") = Some (bare (bs "y") []) /\ tree_branch forest0 (bs "q") = None.
Proof. vm_compute. repeat split. Qed.
