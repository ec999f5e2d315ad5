(** Properties of the derive macros: names, writing structures, reading structures; and
    of providers that pause. *)
From Verif Require Import Base Bytes Utf8 Values Key Header Obj RObj TreeObj File Names Column ColRead SliceRead ColOps TreeOps ColBack ColType TreeFinal TreeWrite TreeSession StreamerDb
  Spec CodecFacts SpecTree SpecRead SessFacts TreeFacts ZipFacts Derive SpecDerive DeriveFacts DeriveOut DeriveWrite Sample.

(** ** C27: names *)

(** Going down a chain of fields, of any length and with any options, the name asked for
    is the path of the fields joined by dots. *)
Theorem C27_names_are_paths (chain : list (option bytes * fopts)) :
  final_name (fold_left (fun b gf => field_bname b (fst gf) (snd gf)) chain bn_new) =
  dotted (fold_left (fun p gf => field_path p (fst gf) (snd gf)) chain []).
Proof.
  assert (G : forall chain b p, bn_at b p -> bn_at (fold_left (fun b gf => field_bname b (fst gf) (snd gf)) chain b)
     (fold_left (fun p gf => field_path p (fst gf) (snd gf)) chain p)).
  { clear. intros chain. induction chain as [|gf chain IH]; intros b p B; [exact B|]. cbn [fold_left]. apply IH. now apply bn_at_field. }
  exact (proj1 (G chain bn_new [] bn_at_new)).
Qed.
(** Without options the path is made of the identifiers. *)
Theorem C27_plain_names idents :
  final_name (fold_left (fun b n => field_bname b None (mkFO n None None None)) idents bn_new) = dotted idents.
Proof.
  pose proof (C27_names_are_paths (map (fun n => (None, mkFO n None None None)) idents)) as H.
  assert (F : forall A (g : A -> (option bytes * fopts) -> A) b, fold_left g (map (fun n => (None, mkFO n None None None)) idents) b = fold_left (fun b n => g b (None, mkFO n None None None)) idents b).
  { clear. intros A g. induction idents as [|n l IH]; intros b; [reflexivity|]. cbn [map fold_left]. apply IH. }
  rewrite !F in H. cbn [fst snd] in H. rewrite H. f_equal. change idents with ([] ++ idents) at 2. generalize (@nil bytes) as p. clear.
  induction idents as [|n l IH]; intros p; cbn [fold_left]; [now rewrite app_nil_r|]. rewrite IH. unfold field_path. cbn. now rewrite <- app_assoc.
Qed.
(** An absolute name forgets what is above it. *)
Theorem C27_absolute_names above f g below n : fo_absolute f = Some n ->
  final_name (fold_left (fun b gf => field_bname b (fst gf) (snd gf)) (above ++ (g, f) :: below) bn_new) =
  dotted (fold_left (fun p gf => field_path p (fst gf) (snd gf)) below [or_else (fo_prefix f) [] ++ n]).
Proof.
  intros A. rewrite C27_names_are_paths, fold_left_app. cbn [fold_left fst snd]. unfold field_path at 2. now rewrite A.
Qed.
Example names0 :
  final_name (fold_left (fun b gf => field_bname b (fst gf) (snd gf))
    [(None, mkFO (bs "event") None None None); (Some (bs "g_"), mkFO (bs "pos") (Some (bs "position")) None None);
     (Some (bs "g_"), mkFO (bs "x") None None (Some (bs "p_")))] bn_new) = bs "event.g_position.p_x" /\
  final_name (fold_left (fun b gf => field_bname b (fst gf) (snd gf))
    [(None, mkFO (bs "event") None None None); (None, mkFO (bs "pos") None (Some (bs "here")) None); (None, mkFO (bs "x") None None None)] bn_new) = bs "here.x".
Proof. split; vm_compute; reflexivity. Qed.

(** ** C28, C29: writing structures *)

Definition flat_type (fs : list (bytes * ty)) : list (bytes * wty) := map (fun f => (fst f, WLeaf (snd f))) fs.
Definition flat_value (row : list val) : sval := SStruct (map SVal row).
Lemma flat_plain fs : plain_fields (flat_type fs) = map (fun f => (fst f, snd f, 0%nat)) fs.
Proof. unfold plain_fields, flat_type. induction fs as [|f fs IH]; cbn; [reflexivity|]. cbn in IH. now rewrite IH. Qed.
Lemma flat_values row : plain_values (flat_value row) = row.
Proof. unfold flat_value. cbn [plain_values]. induction row as [|v row IH]; cbn; [reflexivity|]. now rewrite IH. Qed.

(** Structures all of whose fields are plain: each field is a column, and the entries of
    the column are the fields of the structures, all of them in order. *)
Theorem C28_flat_structures_are_columns path name fs rows f : fs <> [] ->
  derived_file path name (flat_type fs) (map flat_value rows) f -> short_path path ->
  exists fo r, open_file (f_disk f) = Ok fo /\ get_tree fo name = Ok r /\ t_entries r = zlen rows /\
    Forall2 (fun jf b => shows_column fo (Column (fst (snd jf)) (snd (snd jf)) (map (fun row => nth (fst jf) row (VInt 0)) rows)) b)
      (combine (seq 0 (length fs)) fs) (t_branches r).
Proof.
  intros NE D Sh. destruct (derived_back _ _ _ _ _ D Sh) as (fo & r & O & G & _ & TE & F).
  assert (HP : has_plain (flat_type fs) = true) by (destruct fs; [contradiction|reflexivity]).
  exists fo, r. split; [exact O|split; [exact G|]]. rewrite HP in TE. split; [now rewrite TE, !zlen_def, map_length|].
  rewrite flat_plain, (map_length (fun f : bytes * ty => (fst f, snd f, 0%nat)) fs) in F. clear - F HP.
  assert (E : forall k, combine (map (fun f => (fst f, snd f, 0%nat)) fs) (seq k (length fs)) =
     map (fun jf : nat * (bytes * ty) => ((fst (snd jf), snd (snd jf), 0%nat), fst jf)) (combine (seq k (length fs)) fs)).
  { clear. induction fs as [|f fs IH]; intros k; cbn; [reflexivity|]. now rewrite IH. }
  rewrite E in F. apply Forall2_map_l in F. revert F. apply Forall2_in. intros [j [n t]] b _. cbn [fst snd]. unfold kept. rewrite HP.
  rewrite firstn_all2 by (unfold field_values; rewrite !map_length; lia). unfold field_values. rewrite map_map.
  intros H. erewrite map_ext; [exact H|]. intros row. cbv beta. now rewrite flat_values.
Qed.

Definition flat_fields : list (bytes * ty) := [(bs "a", TPrim I32); (bs "s", TString)].
Definition flat_rows : list (list val) := [[VInt 1; VStr (bs "x")]; [VInt 2; VStr (bs "yy")]].
Definition flat_file : file := Eval vm_compute in fst (session real_db path0 [to_tree (bs "t") (flat_type flat_fields) (map flat_value flat_rows)]).
Definition flat_heard : res (list (list (nat * event))) := Eval vm_compute in snd (session real_db path0 [to_tree (bs "t") (flat_type flat_fields) (map flat_value flat_rows)]).
Lemma flat_ran : session real_db path0 [to_tree (bs "t") (flat_type flat_fields) (map flat_value flat_rows)] = (flat_file, flat_heard).
Proof. vm_cast_no_check (eq_refl (flat_file, flat_heard)). Qed.
Ltac isa :=
  match goal with
  | |- is_a _ (SVal _) => constructor; sample
  | |- is_a _ _ => constructor; isa
  | |- are _ [] => constructor
  | |- are _ _ => constructor; isa
  | |- Forall _ [] => constructor
  | |- Forall _ _ => constructor; isa
  end.
Example flat_derived : derived_file path0 (bs "t") (flat_type flat_fields) (map flat_value flat_rows) flat_file.
Proof.
  split; [split; sample|]. split; [sample|]. split; [sample|]. split; [vm_compute; intuition discriminate|]. split; [|split].
  - unfold flat_fields, flat_rows, flat_value, flat_type. cbn [map fst snd]. isa.
  - unfold flat_fields, flat_type. cbn [map plain_fields flat_map plain_of fst snd app]. sample.
  - eexists. split; [exact flat_ran|vm_compute; discriminate].
Qed.

(** Exactly what is written in general.  With a plain field in the structure itself, the
    tree has as many entries as there were structures, and a column whose field is
    nested [d] deep holds all but the last [d - 1] of its values.  Without one, there is
    nothing. *)
Theorem C29_what_structures_leave path name fs items f : derived_file path name fs items f -> short_path path ->
  exists fo r, open_file (f_disk f) = Ok fo /\ get_tree fo name = Ok r /\
    (some_plain fs -> t_entries r = zlen items /\
       Forall2 (fun l b => let '((n, t, d), j) := l in
                  shows_column fo (Column n t (firstn (length items - (d - 1)) (field_values j items))) b)
         (combine (plain_fields fs) (seq 0 (length (plain_fields fs)))) (t_branches r)) /\
    (~ some_plain fs -> t_entries r = 0 /\
       Forall2 (fun l b => let '(n, t, _) := l in shows_column fo (Column n t []) b) (plain_fields fs) (t_branches r)).
Proof.
  intros D Sh. destruct (derived_back _ _ _ _ _ D Sh) as (fo & r & O & G & _ & TE & F).
  exists fo, r. split; [exact O|split; [exact G|]]. pose proof (has_plain_iff fs) as HP. split; intros SP.
  - apply HP in SP. rewrite SP in TE. split; [exact TE|]. revert F. apply Forall2_in. intros [[[n t] d] j] b _. unfold kept. rewrite SP.
    destruct d as [|d].
    + replace (length items - (0 - 1))%nat with (length items) by lia.
      rewrite !firstn_all2 by (unfold field_values; rewrite map_length; lia). exact (fun x => x).
    + replace (S (length items) - S d)%nat with (length items - (S d - 1))%nat by lia. exact (fun x => x).
  - assert (E : has_plain fs = false) by (destruct (has_plain fs); [exfalso; now apply SP, HP|reflexivity]). rewrite E in TE. split; [exact TE|].
    assert (L : length (seq 0 (length (plain_fields fs))) = length (plain_fields fs)) by apply seq_length.
    revert F L. generalize (seq 0 (length (plain_fields fs))) (t_branches r). clear - E. intros s bs F L. unfold kept in F. rewrite E in F. clear E.
    revert s bs F L. induction (plain_fields fs) as [|[[n t] d] pl IH]; intros [|j s] bs F L; try discriminate L; cbn [combine] in F; inversion F; subst; constructor; auto.
    apply (IH s); [assumption|]. now injection L.
Qed.
(** A plain field in the structure and one level of nesting: everything is there. *)
Theorem C29_nested_structures_are_columns path name fs items f : derived_file path name fs items f -> short_path path ->
  some_plain fs -> Forall (fun l => (snd l <= 1)%nat) (plain_fields fs) ->
  exists fo r, open_file (f_disk f) = Ok fo /\ get_tree fo name = Ok r /\ t_entries r = zlen items /\
    Forall2 (fun l b => let '((n, t, _), j) := l in shows_column fo (Column n t (field_values j items)) b)
      (combine (plain_fields fs) (seq 0 (length (plain_fields fs)))) (t_branches r).
Proof.
  intros D Sh SP DE. destruct (C29_what_structures_leave _ _ _ _ _ D Sh) as (fo & r & O & G & H & _). destruct (H SP) as [TE F].
  exists fo, r. repeat (split; [assumption|]). revert F. apply Forall2_in. intros [[[n t] d] j] b Hl. apply in_combine_l in Hl.
  rewrite Forall_forall in DE. specialize (DE _ Hl). cbn [snd] in DE. rewrite firstn_all2 by (unfold field_values; rewrite map_length; lia). exact (fun x => x).
Qed.

(** A structure with a plain field, a nested plain field, and a plain field nested twice. *)
Definition deep_type : list (bytes * wty) :=
  [(bs "id", WLeaf (TPrim I32)); (bs "pos", WStruct [(bs "x", WLeaf (TPrim U16)); (bs "in", WStruct [(bs "deep", WLeaf (TPrim U8))])])].
Definition deep_items : list sval :=
  [SStruct [SVal (VInt 1); SStruct [SVal (VInt 10); SStruct [SVal (VInt 100)]]];
   SStruct [SVal (VInt 2); SStruct [SVal (VInt 20); SStruct [SVal (VInt 200)]]]].
Definition deep_file : file := Eval vm_compute in fst (session real_db path0 [to_tree (bs "t") deep_type deep_items]).
Definition deep_heard : res (list (list (nat * event))) := Eval vm_compute in snd (session real_db path0 [to_tree (bs "t") deep_type deep_items]).
Lemma deep_ran : session real_db path0 [to_tree (bs "t") deep_type deep_items] = (deep_file, deep_heard).
Proof. vm_cast_no_check (eq_refl (deep_file, deep_heard)). Qed.
Example deep_derived : derived_file path0 (bs "t") deep_type deep_items deep_file.
Proof.
  split; [split; sample|]. split; [sample|]. split; [sample|]. split; [vm_compute; intuition discriminate|]. split; [|split].
  - unfold deep_type, deep_items. isa.
  - unfold deep_type. cbn [plain_fields flat_map plain_of fst snd app]. sample.
  - eexists. split; [exact deep_ran|vm_compute; discriminate].
Qed.
Lemma F2_cons {A B} (Q : A -> B -> Prop) a l m : Forall2 Q (a :: l) m -> exists b m', m = b :: m' /\ Q a b /\ Forall2 Q l m'.
Proof. intros H. inversion H; subst. eauto. Qed.
(** So nesting twice loses the last entry, *)
Theorem C29_nested_twice_refuted : exists fo r b, open_file (f_disk deep_file) = Ok fo /\ get_tree fo (bs "t") = Ok r /\
  t_entries r = 2 /\ tree_branch r (bs "deep") = Some b /\ values_of fo (TPrim U8) b = Ok [VInt 100].
Proof.
  destruct (C29_what_structures_leave _ _ _ _ _ deep_derived) as (fo & r & O & G & H & _); [vm_compute; discriminate|].
  destruct H as [TE F]; [exists (bs "id"), (TPrim I32); now left|]. exists fo, r.
  cbn [deep_type plain_fields flat_map plain_of fst snd app length seq combine] in F.
  apply F2_cons in F as (b0 & bl0 & EB & F0 & F). apply F2_cons in F as (b1 & bl1 & -> & F2 & F). apply F2_cons in F as (b2 & bl2 & -> & F4 & F).
  inversion F. subst bl2. exists b2.
  split; [exact O|split; [exact G|split; [exact TE|]]]. destruct F0 as (N0 & S0 & _). destruct F2 as (N1 & S1 & _). destruct F4 as (N2 & S2 & _ & V & _). cbn [c_name] in *. split.
  - rewrite tree_branch_first, flat_branches by (rewrite EB; auto). rewrite EB. cbn [find]. rewrite N0, N1, N2. reflexivity.
  - destruct V as [V _]; [split; vm_compute; intuition discriminate|]. apply V. cbn [length Nat.sub]. repeat constructor.
Qed.
(** and a structure of nested structures only loses everything, whatever it holds. *)
Theorem C29_only_nested_refuted path name fs items f : derived_file path name fs items f -> short_path path -> ~ some_plain fs ->
  exists fo r, open_file (f_disk f) = Ok fo /\ get_tree fo name = Ok r /\ t_entries r = 0 /\
    Forall (fun b => b_entries (br_core b) = 0) (t_branches r).
Proof.
  intros D Sh N. destruct (C29_what_structures_leave _ _ _ _ _ D Sh) as (fo & r & O & G & _ & H). destruct (H N) as [TE F].
  exists fo, r. repeat (split; [assumption|]). clear - F. induction F as [|[[n t] d] b l bs (_ & _ & E & _) _ IH]; constructor; [exact E|exact IH].
Qed.

(** ** C30: reading structures *)

(** Whenever the columns a structure looks for are there and read as [delivers] says, so
    does the structure: by rows, up to the end of the shortest column. *)
Theorem C30_structures_are_rows d sis t w l : delivers d sis t [] w l -> from_tree d sis t w = Ok l.
Proof. apply from_tree_delivers. Qed.
(** Spelled out for a structure of plain fields. *)
Theorem C30_plain_fields d sis t g fs cols : fs <> [] ->
  Forall2 (fun f l => exists b, tree_branch t (dotted (field_path [] g (fst f))) = Some b /\ as_iter d sis (snd f) b = Ok l) fs cols ->
  from_tree d sis t (RStruct g (map (fun f => (fst f, RPlain (snd f))) fs)) =
  Ok (map (fun i => SStruct (map (fun c => SVal (nth i c (VInt 0))) cols)) (seq 0 (shortest cols))).
Proof.
  intros NE F. rewrite (from_tree_delivers d sis t _ (map SStruct (rows_of (SVal (VInt 0)) (map (map SVal) cols)))).
  - f_equal. unfold rows_of. rewrite map_map.
    assert (S : shortest (map (map SVal) cols) = shortest cols).
    { clear. unfold shortest. destruct cols as [|c cols]; [reflexivity|]. cbn [map]. rewrite map_length, map_map. f_equal.
      apply map_ext. intros l. apply map_length. }
    rewrite S. apply map_ext. intros i. f_equal. rewrite map_map. apply map_ext. intros c. apply (map_nth SVal c (VInt 0)).
  - constructor; [destruct fs; [contradiction|discriminate]|]. clear NE. induction F as [|[f ty] l fs cols H _ IH]; cbn [map fst snd]; constructor; [|exact IH].
    constructor. exact H.
Qed.
(** A field whose column is not there makes the whole structure unreadable. *)
Theorem C30_missing_column d sis t w n : needs [] w n -> tree_branch t n = None -> forall l, from_tree d sis t w <> Ok l.
Proof.
  intros N B l E. unfold from_tree in E. apply rbind_inv in E as (i & E & _). now apply (needs_column d sis t [] w n N bn_new bn_at_new B i).
Qed.
(** A structure without fields never ends. *)
Theorem C30_empty_structure_refuted d sis t g : exists i, from_branch_tree d sis t bn_new (RStruct g []) = Ok i /\
  it_next i = Ok (Some (SStruct [], i)).
Proof. exists (ItStruct []). split; reflexivity. Qed.
(** In a slice of structures the last field decides how many there are; a field with
    fewer values makes the reader panic. *)
Theorem C30_uneven_slices_refuted cols c : cols <> [] -> In c cols -> (length c < length (last cols []))%nat ->
  slice_of_structs cols = Panic.
Proof. apply uneven_slices. Qed.
Example uneven0 : slice_of_structs [[VInt 1]; [VInt 2; VInt 3]] = Panic /\
  slice_of_structs [[VInt 2; VInt 3]; [VInt 1]] = Ok (SSlice [SStruct [SVal (VInt 2); SVal (VInt 1)]]).
Proof. split; vm_compute; reflexivity. Qed.

(** ** C42: both directions *)

Theorem C42_structures_come_back path name fs items f w : derived_file path name fs items f -> short_path path ->
  mirrors [] w [] (WStruct fs) -> some_plain fs -> Forall (fun l => (snd l <= 1)%nat) (plain_fields fs) ->
  NoDup (map (fun l => fst (fst l)) (plain_fields fs)) ->
  (forall j n t d, nth_error (plain_fields fs) j = Some (n, t, d) -> column_readable (Column n t (field_values j items))) ->
  exists fo r, open_file (f_disk f) = Ok fo /\ get_tree fo name = Ok r /\ from_tree (f_disk fo) (f_sinfos fo) r w = Ok items.
Proof.
  intros D Sh MI SP DE ND CR. destruct (C29_nested_structures_are_columns _ _ _ _ _ D Sh SP DE) as (fo & r & O & G & _ & F).
  exists fo, r. split; [exact O|split; [exact G|]]. apply from_tree_delivers.
  assert (L : length (combine (plain_fields fs) (seq 0 (length (plain_fields fs)))) = length (plain_fields fs)) by (rewrite combine_length, seq_length; lia).
  assert (NB : map br_name (t_branches r) = map (fun l => fst (fst l)) (plain_fields fs)).
  { clear - F. revert F. generalize (t_branches r). generalize (seq_length (length (plain_fields fs)) 0). generalize (seq 0 (length (plain_fields fs))).
    induction (plain_fields fs) as [|[[n t] d] pl IH]; intros [|j s] LS bs F; try discriminate LS; cbn [combine] in F; inversion F as [|? b ? ? Hb F']; subst; [reflexivity|].
    cbn [map fst snd]. rewrite (IH s) by (auto; now injection LS). f_equal. apply Hb. }
  assert (FL : tree_branches_r r = t_branches r).
  { apply flat_branches. clear - F. induction F as [|[[[n t] d] j] b l bs Hb _ IH]; constructor; [apply Hb|exact IH]. }
  apply (mirrors_delivers _ _ _ _ _ _ _ MI 0%nat).
  - apply D.
  - intros i n t dd Hi.
    assert (HF : exists d', nth_error (plain_fields fs) i = Some (n, t, d')).
    { pose proof (plain_top fs) as PT. apply (f_equal (fun l => nth_error l i)) in PT. cbv beta in PT. rewrite !nth_error_map, Hi in PT. cbn [option_map fst] in PT.
      destruct (nth_error (plain_fields fs) i) as [[[n' t'] d']|]; [|discriminate]. exists d'. cbn [option_map fst] in PT. congruence. }
    destruct HF as (d' & HF). specialize (CR _ _ _ _ HF).
    assert (HB : exists b, nth_error (t_branches r) i = Some b /\ shows_column fo (Column n t (field_values i items)) b).
    { assert (HC : nth_error (combine (plain_fields fs) (seq 0 (length (plain_fields fs)))) i = Some ((n, t, d'), i)).
      { assert (Hlt : (i < length (plain_fields fs))%nat) by (apply nth_error_Some; congruence).
        rewrite (nth_error_nth' _ (([], TString, 0%nat), 0%nat)) by lia. rewrite combine_nth by now rewrite seq_length.
        rewrite seq_nth by lia. now rewrite (nth_error_nth _ _ _ HF). }
      clear - F HC. revert i n t d' HC.
      assert (X : forall i l, nth_error (combine (plain_fields fs) (seq 0 (length (plain_fields fs)))) i = Some l -> exists b, nth_error (t_branches r) i = Some b /\
         (let '((n, t, _), j) := l in shows_column fo (Column n t (field_values j items)) b)).
      { revert F. generalize (combine (plain_fields fs) (seq 0 (length (plain_fields fs)))) (t_branches r). intros l0 bs F.
        induction F as [|x b l0 bs Hb _ IH]; intros [|i] l E; try discriminate E; cbn [nth_error] in *; [injection E as <-; eauto|now apply IH]. }
      intros i n t d' HC. apply (X i _ HC). }
    destruct HB as (b & EB & SB). exists b. destruct SB as (N0 & _ & _ & V & _). cbn [c_name] in N0. destruct CR as [CN CV]. split.
    + rewrite tree_branch_first, FL. cbn [c_name] in *. rewrite <- N0. apply find_nodup; [rewrite NB; exact ND|]. eapply nth_error_In, EB.
    + now apply V.
Qed.
(** But a nested field is written under its own name and looked for under the path to
    it: with the names of the macros' defaults, structures with nested structures can be
    written and never read back. *)
Theorem C42_nested_names_refuted path name fs items f w n : derived_file path name fs items f -> short_path path ->
  needs [] w n -> ~ In n (map (fun l => fst (fst l)) (plain_fields fs)) ->
  exists fo r, open_file (f_disk f) = Ok fo /\ get_tree fo name = Ok r /\ forall l, from_tree (f_disk fo) (f_sinfos fo) r w <> Ok l.
Proof.
  intros D Sh NE NI. destruct (derived_back _ _ _ _ _ D Sh) as (fo & r & O & G & _ & _ & F).
  exists fo, r. split; [exact O|split; [exact G|]]. apply (C30_missing_column _ _ _ _ n NE).
  assert (NB : map br_name (t_branches r) = map (fun l => fst (fst l)) (plain_fields fs)).
  { clear - F. revert F. generalize (t_branches r). generalize (seq_length (length (plain_fields fs)) 0). generalize (seq 0 (length (plain_fields fs))).
    generalize (kept fs (length items)) as kp.
    induction (plain_fields fs) as [|[[n t] d] pl IH]; intros kp [|j s] LS bs F; try discriminate LS; cbn [combine] in F; inversion F as [|? b ? ? Hb F']; subst; [reflexivity|].
    cbn [map fst snd]. rewrite (IH kp s) by (auto; now injection LS). f_equal. apply Hb. }
  rewrite tree_branch_first, flat_branches.
  - destruct (find _ _) as [b|] eqn:E; [|reflexivity]. exfalso. apply find_some in E as [Hb E]. apply beqb_eq in E. apply NI. rewrite <- NB, <- E. now apply in_map.
  - clear - F. induction F as [|[[[n t] d] j] b l bs Hb _ IH]; constructor; [apply Hb|exact IH].
Qed.
Definition deep_reader : rty := RStruct None
  [(mkFO (bs "id") None None None, RPlain (TPrim I32));
   (mkFO (bs "pos") None None None, RStruct None [(mkFO (bs "x") None None None, RPlain (TPrim U16));
      (mkFO (bs "in") None None None, RStruct None [(mkFO (bs "deep") None None None, RPlain (TPrim U8))])])].
Example deep_not_read : exists fo r, open_file (f_disk deep_file) = Ok fo /\ get_tree fo (bs "t") = Ok r /\
  forall l, from_tree (f_disk fo) (f_sinfos fo) r deep_reader <> Ok l.
Proof.
  apply (C42_nested_names_refuted _ _ _ _ _ _ (bs "pos.x") deep_derived); [vm_compute; discriminate| |vm_compute; intuition discriminate].
  eapply need_struct; [right; left; reflexivity|]. eapply need_struct; [left; reflexivity|]. apply (need_plain [bs "pos"; bs "x"]).
Qed.

(** ** C43: providers that pause *)

Lemma ended_pause k l : ended k l = (pause l <? k)%nat.
Proof.
  revert l. induction k as [|k IH]; intros l; [reflexivity|]. cbn [ended]. destruct l as [|[v|] l]; cbn [pause]; [reflexivity| |reflexivity].
  rewrite IH. reflexivity.
Qed.
Lemma answered_somes l : answered l = somes l.
Proof. induction l as [|[v|] l IH]; cbn; congruence. Qed.

(** Columns are asked in rounds until each has answered "nothing" at least once; one that
    pauses goes on being asked, and what it answers later is still written. *)
Theorem C43_pausing_providers path name ps f : provided_file path name ps f -> short_path path ->
  exists fo r, open_file (f_disk f) = Ok fo /\ get_tree fo name = Ok r /\
    t_entries r = Z.of_nat (longest_start ps) /\
    Forall2 (fun p b => shows_column fo (Column (pr_name p) (pr_type p) (answered (firstn (S (longest_start ps)) (pr_answers p)))) b) ps (t_branches r).
Proof.
  intros (P & TN & LN & N59 & PO & es & SE & HD) Sh.
  set (p := mkTP name _) in SE.
  assert (EC : cols_of (tp_ops p) = map (fun q => mkCS (pr_name q) (pr_type q) (pr_answers q)) ps).
  { unfold p. cbn [tp_ops]. clear. induction ps as [|q ps IH]; [reflexivity|]. cbn [map cols_of]. now rewrite IH. }
  destruct (one_tree path p f es P Sh) as (fo & r & O & G & _ & m & PS & TE & SC).
  - split.
    + apply names_fit; [exact TN|apply text_nil|apply text_bs; now vm_compute|vm_compute; discriminate|cbn [p tp_name]; vm_compute (zlen []); lia].
    + rewrite EC. apply Forall_forall. intros s Hs. apply in_map_iff in Hs as (q & <- & Hq). rewrite Forall_forall in PO. destruct (PO q Hq) as (CT & Tn & Ln & TV).
      red. cbn [cs_ty cs_name cs_it]. split; [now apply column_type_ok|split].
      * apply names_fit; [exact Tn|exact TN|apply text_bs; now vm_compute|vm_compute; discriminate|exact Ln].
      * apply Forall_forall. intros o Ho v ->. apply has_type_wt. rewrite Forall_forall in TV. apply TV. clear - Ho.
        induction (pr_answers q) as [|[x|] l IH]; [destruct Ho| |]; cbn [answered]; destruct Ho as [E|Ho]; try discriminate E; [injection E as ->; now left|right|]; auto.
  - rewrite EC. apply Forall_forall. intros s Hs. apply in_map_iff in Hs as (q & <- & Hq). rewrite Forall_forall in PO. now destruct (PO q Hq) as (CT & _).
  - exact N59.
  - exact SE.
  - exact HD.
  - exists fo, r. split; [exact O|split; [exact G|]]. rewrite EC in PS, SC.
    assert (EM : m = longest_start ps).
    { destruct PS as [P1 P2]. unfold longest_start.
      assert (A : forall k, all_ended k (map (fun q => mkCS (pr_name q) (pr_type q) (pr_answers q)) ps) = true <-> Forall (fun n => (n < k)%nat) (map (fun p => pause (pr_answers p)) ps)).
      { intros k. unfold all_ended. rewrite forallb_map. rewrite forallb_forall, Forall_forall. split.
        - intros H n Hn. apply in_map_iff in Hn as (q & <- & Hq). specialize (H q Hq). cbn [cs_it] in H. rewrite ended_pause in H. now apply Nat.ltb_lt.
        - intros H q Hq. cbn [cs_it]. rewrite ended_pause. apply Nat.ltb_lt, H, in_map_iff. eauto. }
      apply A in P1. set (l := map (fun p => pause (pr_answers p)) ps) in *.
      assert (U : (list_max l <= m)%nat). { apply list_max_le. eapply Forall_impl; [|exact P1]. intros n Hn. cbn beta in Hn. lia. }
      destruct (Nat.eq_dec m (list_max l)) as [|N]; [assumption|]. exfalso. specialize (P2 m ltac:(lia)).
      assert (X : all_ended m (map (fun q => mkCS (pr_name q) (pr_type q) (pr_answers q)) ps) = true); [|congruence].
      apply A. fold l. assert (L : (list_max l <= list_max l)%nat) by lia. apply list_max_le in L. eapply Forall_impl; [|exact L]. intros n Hn. cbn beta in Hn. lia. }
    subst m. split; [exact TE|]. apply Forall2_map_l in SC. revert SC. apply Forall2_in. intros q b _. cbn [cs_name cs_ty cs_it]. unfold taken. now rewrite answered_somes.
Qed.

(** The structure, with the nested field read under an absolute name, comes back. *)
Definition near_type : list (bytes * wty) := [(bs "id", WLeaf (TPrim I32)); (bs "pos", WStruct [(bs "x", WLeaf (TPrim U16))])].
Definition near_items : list sval := [SStruct [SVal (VInt 1); SStruct [SVal (VInt 10)]]; SStruct [SVal (VInt 2); SStruct [SVal (VInt 20)]]].
Definition near_reader : rty := RStruct None
  [(mkFO (bs "id") None None None, RPlain (TPrim I32));
   (mkFO (bs "pos") None None None, RStruct None [(mkFO (bs "x") None (Some (bs "x")) None, RPlain (TPrim U16))])].
Definition near_file : file := Eval vm_compute in fst (session real_db path0 [to_tree (bs "t") near_type near_items]).
Definition near_heard : res (list (list (nat * event))) := Eval vm_compute in snd (session real_db path0 [to_tree (bs "t") near_type near_items]).
Lemma near_ran : session real_db path0 [to_tree (bs "t") near_type near_items] = (near_file, near_heard).
Proof. vm_cast_no_check (eq_refl (near_file, near_heard)). Qed.
Example near_comes_back : exists fo r, open_file (f_disk near_file) = Ok fo /\ get_tree fo (bs "t") = Ok r /\
  from_tree (f_disk fo) (f_sinfos fo) r near_reader = Ok near_items.
Proof.
  apply (C42_structures_come_back path0 (bs "t") near_type near_items near_file near_reader).
  - split; [split; sample|]. split; [sample|]. split; [sample|]. split; [vm_compute; intuition discriminate|]. split; [|split].
    + unfold near_type, near_items. isa.
    + unfold near_type. cbn [plain_fields flat_map plain_of fst snd app]. sample.
    + eexists. split; [exact near_ran|vm_compute; discriminate].
  - vm_compute. discriminate.
  - unfold near_reader, near_type. constructor; [discriminate|]. constructor; [apply (mir_plain [bs "id"])|]. constructor; [|constructor].
    constructor; [discriminate|]. constructor; [apply (mir_plain [bs "x"])|constructor].
  - exists (bs "id"), (TPrim I32). now left.
  - repeat constructor.
  - cbn. repeat constructor; cbn; intuition discriminate.
  - intros [|[|[|j]]] n t d E; try discriminate E; injection E as <- <- <-; (split; [split; vm_compute; intuition discriminate|repeat constructor]).
Qed.

(** One provider pauses after one value and gives two more; the other gives two. *)
Definition paused : list provided :=
  [Provided (bs "a") (TPrim I32) [Some (VInt 1); None; Some (VInt 2); Some (VInt 3)];
   Provided (bs "b") (TPrim U8) [Some (VInt 7); Some (VInt 8)]].
Definition paused_file : file := Eval vm_compute in fst (session real_db path0 [mkTP (bs "t") (map (fun p => BBranch (pr_name p) (pr_type p) (pr_answers p)) paused)]).
Definition paused_heard : res (list (list (nat * event))) :=
  Eval vm_compute in snd (session real_db path0 [mkTP (bs "t") (map (fun p => BBranch (pr_name p) (pr_type p) (pr_answers p)) paused)]).
Lemma paused_ran : session real_db path0 [mkTP (bs "t") (map (fun p => BBranch (pr_name p) (pr_type p) (pr_answers p)) paused)] = (paused_file, paused_heard).
Proof. vm_cast_no_check (eq_refl (paused_file, paused_heard)). Qed.
Example paused0 : provided_file path0 (bs "t") paused paused_file /\ longest_start paused = 2%nat /\
  map (fun p => answered (firstn (S (longest_start paused)) (pr_answers p))) paused = [[VInt 1; VInt 2]; [VInt 7; VInt 8]].
Proof.
  split; [|split; vm_compute; reflexivity].
  split; [split; sample|]. split; [sample|]. split; [sample|]. split; [vm_compute; intuition discriminate|]. split.
  - unfold paused. cbn [pr_name pr_type pr_answers answered]. repeat (constructor; [cbn [pr_name pr_type pr_answers answered]; sample|]). constructor.
  - eexists. split; [exact paused_ran|vm_compute; discriminate].
Qed.
