(** C56: which columns a tree accepts, and how often it can be written. *)
From Verif Require Import Base Bytes Values Key Obj RObj Names TreeObj File FileLay Column TreeOps TreeWrite TreeSession StreamerDb Spec SpecTree SessFwd SessFacts Sample.

(** Rust arrays of 2^31 elements and more are not considered. *)
Definition array_fits (t : ty) : Prop := match t with TArr n _ => Z.of_nat n < 2 ^ 31 | _ => True end.

(** *** A column is accepted if and only if its type is supported; otherwise the program
    panics. *)
Theorem C56_exactly_these_types name t it : array_fits t ->
  (column_type t -> exists r, wcol_new name t it = Ok r) /\ (~ column_type t -> wcol_new name t it = Panic).
Proof.
  intros A. unfold wcol_new, leaf_new. destruct t as [p| |t'|n t']; cbn [column_type array_fits] in *.
  - split; [intros _|tauto]. destruct (prim_leaf p). cbn [rbind]. eauto.
  - split; [intros _; cbn [rbind]; eauto|tauto].
  - cbn [rbind]. destruct t' as [p| |t''|n t'']; try (split; [tauto|reflexivity]).
    destruct p; (split; [intros N; try (destruct N; reflexivity); cbn [vec_sinfo w_class enum_of_prim prim_name option_map rbind]; eauto|
                         intros N; try (destruct N; discriminate); reflexivity]).
  - pose proof (Zle_0_nat n). rewrite to_i32_id by (unfold is_i32; lia). destruct (Z.eqb_spec (Z.of_nat n) 0) as [E|E]; cbn [rbind].
    + split; [|reflexivity]. destruct t'; try tauto. lia.
    + destruct t' as [p| |t''|m t'']; cbn [rbind]; try (split; [tauto|reflexivity]).
      destruct (prim_leaf p). destruct (Z.ltb_spec (Z.of_nat n) 0); [lia|]. cbn [rbind]. split; [eauto|lia].
Qed.

(** *** Table by table: a table with a column of another type is refused before anything
    happens to the file. *)
Lemma build_panics l : forall w, Forall (fun c => array_fits (c_type c)) (columns l) -> wt_sinfos w <> None ->
  ~ Forall (fun c => column_type (c_type c)) (columns l) -> build w (tp_ops (calls (Table [] l))) = Panic.
Proof.
  unfold calls. cbn [tp_ops tb_setup]. induction l as [|[c|] l IH]; intros w A W N; cbn [columns] in *.
  - destruct N. constructor.
  - inversion A as [|? ? A1 A2]; subst. cbn [map build]. cbn [build_step]. unfold new_branch.
    destruct (C56_exactly_these_types (c_name c) (c_type c) (map Some (c_values c)) A1) as (Y & X).
    assert (D : column_type (c_type c) \/ ~ column_type (c_type c)).
    { unfold column_type. destruct (c_type c) as [p| |[p| |t''|m t'']|n [p| |t''|m t'']]; try (left; exact I); try (right; tauto).
      - destruct p; ((left; discriminate) || (right; tauto)).
      - destruct (Nat.eq_dec n 0); [right; lia|]. destruct (Z_lt_dec (Z.of_nat n) (2 ^ 31)); [left|right]; lia. }
    destruct D as [D|D].
    + destruct (Y D) as ([c' sis] & ->). cbn [rbind]. destruct (wt_sinfos w) as [s|]; [|now destruct W]. cbn [rbind].
      apply IH; [exact A2|discriminate|]. intros F. apply N. now constructor.
    + rewrite (X D). reflexivity.
  - cbn [map build build_step rbind]. apply IH; auto.
Qed.
Theorem C56_other_types_leave_no_trace t f : Forall (fun c => array_fits (c_type c)) (columns (tb_setup t)) ->
  ~ Forall (fun c => column_type (c_type c)) (columns (tb_setup t)) -> write_one real_db (calls t) f = (f, Panic).
Proof.
  intros A N. unfold write_one. unfold fbind at 1, flift. 
  pose proof (build_panics (tb_setup t) (wtree_new (tp_name (calls t))) A ltac:(discriminate) N) as B. unfold calls in B |- *. cbn [tp_ops tp_name tb_setup] in B |- *. rewrite B. reflexivity.
Qed.

(** *** A tree that has been written cannot be written again. *)
Theorem C56_a_tree_is_written_once db w f f' w' g g' r : tree_write db w f = (f', Ok w') -> tree_write db w' g = (g', r) -> forall w'', r <> Ok w''.
Proof.
  intros H G w'' ->. assert (S : wt_sinfos w' = None).
  { unfold tree_write in H. cbv zeta in H. apply fbind_inv in H as (f1 & [[t cols] ev] & _ & H). apply fbind_inv in H as (f2 & cols' & _ & H). injection H as _ <-. reflexivity. }
  unfold tree_write in G. cbv zeta in G. apply fbind_inv in G as (g1 & [[t cols] ev] & _ & G). apply fbind_inv in G as (g2 & cols' & G & _).
  unfold tree_close in G. rewrite S in G. apply fbind_inv in G as (g3 & c3 & _ & G). apply fbind_inv in G as (g4 & c4 & _ & G). discriminate G.
Qed.

(** The hypotheses are met: vectors of [bool], of strings and of vectors, arrays of arrays
    and empty arrays are refused, after a good column as well; a table can be built,
    written, and then not written again. *)
Example C56_sample_types : Forall (fun t => array_fits t /\ wcol_new (bs "x") t [] = Panic)
  [TVec (TPrim PBool); TVec TString; TVec (TVec (TPrim I32)); TVec (TArr 2 (TPrim I32)); TArr 2 (TArr 2 (TPrim F32)); TArr 3 TString; TArr 0 (TPrim U8)].
Proof. repeat (apply Forall_cons; [split; [vm_compute; (reflexivity || exact I)|reflexivity]|]). apply Forall_nil. Qed.
Definition refused_table : table := Table (bs "t") [AddColumn (Column (bs "x") (TPrim I32) [VInt 1]); AddCallback; AddColumn (Column (bs "b") (TVec (TPrim PBool)) [])].
Example C56_sample_refused f : write_one real_db (calls refused_table) f = (f, Panic).
Proof.
  apply C56_other_types_leave_no_trace.
  - cbn [refused_table tb_setup columns]. repeat (apply Forall_cons; [exact I|]). apply Forall_nil.
  - cbn [refused_table tb_setup columns]. intros F. inversion F as [|? ? _ F2]. inversion F2 as [|? ? F3 _]. now apply F3.
Qed.
Example C56_sample_once : exists w f' w', build (wtree_new (bs "t")) (tp_ops (calls (Table (bs "t") [AddColumn (Column (bs "x") (TPrim I32) [VInt 1])]))) = Ok w /\
  tree_write real_db w (fst (create path0)) = (f', Ok w') /\ snd (tree_write real_db w' f') = Panic.
Proof. do 3 eexists. split; [vm_compute; reflexivity|]. split; [vm_compute; reflexivity|]. vm_compute. reflexivity. Qed.
