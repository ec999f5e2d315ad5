(** Which class descriptions a finished file holds. *)
From Verif Require Import RoomFwd Spec SpecTree SessFacts FileFacts.
Local Arguments zlen : simpl never.

Lemma vec_not_tree : forallb (fun s => negb (beqb (si_name s) (bs "TTree"))) vec_sis = true.
Proof. vm_compute. reflexivity. Qed.
Lemma tree_si_name : si_name tree_si = bs "TTree". Proof. reflexivity. Qed.

Lemma sis_add_tree sis : Forall (writer_si real_db) sis -> In tree_si (sis_add sis tree_si).
Proof.
  intros F. unfold sis_add. destruct (existsb _ sis) eqn:E; [|apply in_or_app; right; now left].
  apply existsb_exists in E as (s & I & B). apply beqb_eq in B. rewrite tree_si_name in B.
  rewrite Forall_forall in F. destruct (F s I) as [H|H].
  - rewrite real_tree in H. injection H as <-. exact I.
  - exfalso. apply vec_si_in in H. pose proof vec_not_tree as V. rewrite forallb_forall in V. specialize (V s H).
    rewrite B in V. discriminate.
Qed.
Lemma sis_add_in sis si s : In s sis -> In s (sis_add sis si).
Proof. intros I. destruct (sis_add_split sis si) as [-> | ->]; [exact I|apply in_or_app; now left]. Qed.
Lemma fold_sis_add_in l : forall sis s, In s sis -> In s (fold_left sis_add l sis).
Proof. induction l as [|a l IH]; intros sis s I; [exact I|]. cbn [fold_left]. apply IH. now apply sis_add_in. Qed.

Lemma write_one_sis path ps es keys sis recs f p f' e : path_ok path -> sess real_db path ps es keys sis recs f -> tprog_ok p ->
  write_one real_db p f = (f', Ok e) -> zlen (f_disk f') <= kStartBigFile -> Forall (writer_si real_db) (f_sinfos f) ->
  Forall (writer_si real_db) (f_sinfos f') /\ In tree_si (f_sinfos f').
Proof.
  intros P S (N & W) H HD F. unfold write_one in H.
  apply fbind_inv in H as (f1 & w & H1 & H). apply flift_inv in H1 as [-> H1].
  apply fbind_inv in H as (f1 & w' & H2 & H). injection H as <- <-.
  destruct (tree_write_ok real_db path keys sis recs f (tp_name p) (tp_ops p) w f1 w' P (se_lay _ _ _ _ _ _ _ _ S) (numbered_le _ (se_cyc _ _ _ _ _ _ _ _ S))
    N W H1 H2 HD)
    as (SL & recs' & k & si & l & m & G & L & ED & VL & _).
  rewrite (lay_sis _ _ _ _ _ L). rewrite (lay_sis _ _ _ _ _ (se_lay _ _ _ _ _ _ _ _ S)) in F.
  rewrite real_tree in ED. injection ED as <-. split.
  - apply fold_sis_add_Forall; [eapply Forall_impl; [|exact VL]; intros a; right; assumption|].
    apply sis_add_Forall; [exact F|]. left. exact real_tree.
  - apply fold_sis_add_in. now apply sis_add_tree.
Qed.

Lemma write_trees_sis path ps' : path_ok path -> Forall tprog_ok ps' -> forall ps es keys sis recs f f' es',
  sess real_db path ps es keys sis recs f ->
  write_trees real_db ps' f = (f', Ok es') -> zlen (f_disk f') <= kStartBigFile -> Forall (writer_si real_db) (f_sinfos f) ->
  Forall (writer_si real_db) (f_sinfos f') /\ (ps' <> [] \/ In tree_si (f_sinfos f) -> In tree_si (f_sinfos f')).
Proof.
  intros P. induction 1 as [|p ps' T _ IH]; intros ps es keys sis recs f f' es' S H D F; cbn [write_trees] in H.
  - injection H as <- <-. split; [exact F|]. intros [X|X]; [congruence|exact X].
  - apply fbind_inv in H as (f1 & e & H1 & H). apply fbind_inv in H as (f2 & es2 & H2 & H). injection H as <- <-.
    assert (D1 : zlen (f_disk f1) <= kStartBigFile).
    { eapply Z.le_trans; [|exact D]. eapply mono_disk; [|exact H2]. apply mono_write_trees. }
    destruct (write_one_ok _ _ _ _ _ _ _ _ _ _ _ P S T H1 D1) as (k1 & s1 & r1 & S1 & G1).
    destruct (write_one_sis _ _ _ _ _ _ _ _ _ _ P S T H1 D1 F) as (F1 & I1).
    destruct (IH _ _ _ _ _ _ _ _ S1 H2 D F1) as (F2 & I2).
    split; [exact F2|]. intros _. apply I2. now right.
Qed.

Lemma session_sis path ps f es : path_ok path -> Forall tprog_ok ps ->
  session real_db path ps = (f, Ok es) -> zlen (f_disk f) <= kStartBigFile ->
  exists sis, deep real_db sis = Ok (f_sinfos f) /\ Forall (writer_si real_db) sis /\ (ps <> [] -> In tree_si sis).
Proof.
  intros P W H HD. unfold session in H. rewrite (FileLay.create_ok path P) in H.
  apply fbind_inv in H as (f0 & [] & H0 & H). apply flift_inv in H0 as [-> _].
  apply fbind_inv in H as (f1 & es1 & H1 & H). apply fbind_inv in H as (f2 & [] & H2 & H). injection H as <- <-.
  assert (D1 : zlen (f_disk f1) <= kStartBigFile).
  { eapply Z.le_trans; [|exact HD]. eapply mono_disk; [|exact H2]. mono. }
  destruct (write_trees_ok real_db path ps P W [] [] [] [] [] _ _ _ (sess_create real_db path P) H1 D1)
    as (keys & sis & recs & S & _).
  destruct (write_trees_sis path ps P W [] [] [] [] [] _ _ _ (sess_create real_db path P) H1 D1 (Forall_nil _)) as (F & I).
  cbn [app] in S. destruct S as [L ST CY IN UN SR EV SL].
  rewrite (lay_sis _ _ _ _ _ L) in F, I.
  pose proof (lay_bound path keys sis recs f1 P L D1) as LB. destruct L as (log & -> & LL).
  pose proof (E0_pos path P) as HE0. pose proof (rsize_nonneg recs) as HR.
  assert (G : Forall key_good keys).
  { clear - ST. induction ST as [|p k ps keys H _ IH]; constructor; [|exact IH]. now apply stored_name in H. }
  destruct (close_bwd real_db path keys sis log (E0 path + rsize recs) f2 P G ltac:(lia) H2 HD) as (NK & sis' & sbuf & DE & SB & HE).
  rewrite (close_fwd real_db path keys sis log (E0 path + rsize recs) sis' sbuf P G NK ltac:(lia) DE SB HE) in H2. apply (f_equal fst) in H2. cbn [fst] in H2. subst f2.
  exists sis. split; [exact DE|]. split; [exact F|]. intros X. apply I. now left.
Qed.

(** ** The descriptions a tree needs *)
Definition tree_deps : list sinfo := Eval vm_compute in match deep real_db [tree_si] with Ok l => l | _ => [] end.
Lemma tree_deps_ok : deep real_db [tree_si] = Ok tree_deps.
Proof. vm_cast_no_check (@eq_refl (res (list sinfo)) (Ok tree_deps)). Qed.

Definition dep_list (s : sinfo) : list (bytes * Z) := match visit_all real_db (si_elems s) with Ok l => l | _ => [] end.
Definition dep_in (l : list (bytes)) (d : bytes * Z) : bool :=
  is_core_type (fst d) || is_cxx_builtin (fst d) || match real_db (fst d) (snd d) with Some s => existsb (beqb (si_name s)) l | None => true end.
Definition deps_names : list bytes := Eval vm_compute in map si_name tree_deps.

Lemma tree_deps_closed : forallb (dep_in deps_names) (dep_list tree_si) = true.
Proof. vm_cast_no_check (@eq_refl bool true). Qed.
Lemma vec_deps_closed : forallb (fun s => forallb (dep_in deps_names) (dep_list s)) vec_sis = true.
Proof. vm_cast_no_check (@eq_refl bool true). Qed.

Lemma all_deps_in sis : forall deps d, all_deps real_db sis = Ok deps -> (In d deps <-> exists s, In s sis /\ In d (dep_list s)).
Proof.
  induction sis as [|s sis IH]; intros deps d H; cbn [all_deps] in H.
  - injection H as <-. split; [intros []|intros (s & [] & _)].
  - apply rbind_inv in H as (a & A & H). apply rbind_inv in H as (b & B & H). injection H as <-.
    rewrite in_app_iff, (IH b d B). assert (E : dep_list s = a) by (unfold dep_list; now rewrite A). split.
    + intros [X|(x & X & Y)]; [exists s; split; [now left|congruence]|exists x; split; [now right|exact Y]].
    + intros (x & [<-|X] & Y); [left; congruence|right; now exists x].
Qed.

Definition wanted (d : bytes * Z) (s : sinfo) : Prop :=
  is_core_type (fst d) || is_cxx_builtin (fst d) = false /\ real_db (fst d) (snd d) = Some s.
Lemma add_deps_in deps : forall sis sis', add_deps real_db sis deps = Ok sis' ->
  (forall s, In s sis' -> In s sis \/ exists d, In d deps /\ wanted d s) /\ (forall s, In s sis -> In s sis') /\
  (forall d s, In d deps -> wanted d s -> exists s', In s' sis' /\ si_name s' = si_name s).
Proof.
  induction deps as [|d r IH]; intros sis sis' H; cbn [add_deps] in H.
  - injection H as <-. split; [auto|]. split; [auto|]. intros d s [].
  - destruct (is_core_type (fst d) || is_cxx_builtin (fst d)) eqn:C.
    + destruct (IH _ _ H) as (I1 & I2 & I3). split; [|split; [exact I2|]].
      * intros s Hs. destruct (I1 s Hs) as [X|(x & X & Y)]; [now left|right; exists x; split; [now right|exact Y]].
      * intros x s [<-|X] (Y & Z); [congruence|]. apply (I3 x s X). now split.
    + destruct (real_db (fst d) (snd d)) as [si|] eqn:E; [|discriminate].
      destruct (IH _ _ H) as (I1 & I2 & I3). split; [|split].
      * intros s Hs. destruct (I1 s Hs) as [X|(x & X & Y)]; [|right; exists x; split; [now right|exact Y]].
        destruct (sis_add_split sis si) as [S|S]; rewrite S in X; [now left|]. apply in_app_or in X as [X|[<-|[]]]; [now left|].
        right. exists d. split; [now left|]. split; [exact C|exact E].
      * intros s Hs. apply I2. now apply sis_add_in.
      * intros x s [<-|X] Y; [|now apply (I3 x s X)]. destruct Y as (_ & Y). rewrite E in Y. injection Y as <-.
        assert (exists s', In s' (sis_add sis si) /\ si_name s' = si_name si) as (s' & S1 & S2).
        { unfold sis_add. destruct (existsb _ sis) eqn:B.
          - apply existsb_exists in B as (s' & S1 & S2). apply beqb_eq in S2. now exists s'.
          - exists si. split; [apply in_or_app; right; now left|reflexivity]. }
        exists s'. split; [now apply I2|exact S2].
Qed.

Lemma db_name_eq n v s n' v' s' : real_db n v = Some s -> real_db n' v' = Some s' -> si_name s = si_name s' -> s = s'.
Proof.
  intros H H' E. apply real_db_in in H, H'. pose proof (proj1 table_names) as N.
  revert N H H' E. set (l := StreamerDb.table). clearbody l. induction l as [|a l IH]; intros N H H' E; [easy|]. cbn [map] in N. inversion N as [|? ? N1 N2]; subst.
  destruct H as [<-|H], H' as [<-|H']; [reflexivity| | |now apply IH].
  - exfalso. apply N1. rewrite E. now apply in_map.
  - exfalso. apply N1. rewrite <- E. now apply in_map.
Qed.

Lemma tree_deps_src : Forall (from_db real_db) tree_deps.
Proof.
  destruct (deep_ext real_db _ _ tree_deps_ok) as (ext & -> & F). cbn [app]. constructor; [|exact F].
  exists (bs "TTree"), 20. exact real_tree.
Qed.
Lemma deps_vec : forallb (fun s => negb (existsb (beqb (si_name s)) deps_names)) vec_sis = true.
Proof. vm_compute. reflexivity. Qed.
Lemma deps_names_ok : map si_name tree_deps = deps_names. Proof. vm_compute. reflexivity. Qed.
Lemma in_deps_names s : existsb (beqb (si_name s)) deps_names = true <-> exists t, In t tree_deps /\ si_name t = si_name s.
Proof.
  rewrite <- deps_names_ok, existsb_exists. split.
  - intros (n & I & B). apply beqb_eq in B. apply in_map_iff in I as (t & T1 & T2). exists t. split; [exact T2|congruence].
  - intros (t & T1 & T2). exists (si_name t). split; [now apply in_map|]. rewrite T2. apply beqb_refl.
Qed.

Lemma deep_members sis sis' : deep real_db sis = Ok sis' -> Forall (writer_si real_db) sis ->
  (forall s, In s sis' -> In s tree_deps \/ In s vec_sis) /\ (In tree_si sis -> forall s, In s tree_deps -> In s sis').
Proof.
  intros H F. unfold deep in H. apply rbind_inv in H as (deps & HD & H).
  destruct (add_deps_in _ _ _ H) as (I1 & I2 & I3). rewrite Forall_forall in F.
  assert (W : forall s, In s sis -> s = tree_si \/ In s vec_sis).
  { intros s Hs. destruct (F s Hs) as [E|E]; [|right; now apply vec_si_in]. rewrite real_tree in E. injection E as <-. now left. }
  pose proof tree_deps_src as TS. rewrite Forall_forall in TS.
  assert (A : forall s, In s sis' -> In s tree_deps \/ In s vec_sis).
  { intros s Hs. destruct (I1 s Hs) as [X|(d & X & Y1 & Y2)].
    - destruct (W s X) as [->|V]; [left; now left|now right].
    - left. apply (all_deps_in sis deps d HD) in X as (s0 & X1 & X2).
      assert (D : dep_in deps_names d = true).
      { destruct (W s0 X1) as [->|V].
        - pose proof tree_deps_closed as C. rewrite forallb_forall in C. exact (C d X2).
        - pose proof vec_deps_closed as C. rewrite forallb_forall in C. specialize (C s0 V). rewrite forallb_forall in C. exact (C d X2). }
      unfold dep_in in D. rewrite Y1, Y2 in D. cbn [orb] in D. apply in_deps_names in D as (t & T1 & T2).
      destruct (TS t T1) as (n & v & E). now rewrite <- (db_name_eq _ _ _ _ _ _ E Y2 T2). }
  split; [exact A|]. intros T s Hs.
  pose proof tree_deps_ok as K. unfold deep in K. apply rbind_inv in K as (deps0 & HD0 & K).
  destruct (add_deps_in _ _ _ K) as (J1 & _ & _). destruct (J1 s Hs) as [[<-|[]]|(d & X & Y)]; [now apply I2|].
  apply (all_deps_in [tree_si] deps0 d HD0) in X as (s0 & [<-|[]] & X2).
  assert (DD : In d deps) by (exact (proj2 (all_deps_in sis deps d HD) (ex_intro _ tree_si (conj T X2)))).
  destruct (I3 d s DD Y) as (s' & S1 & S2).
  assert (NM : existsb (beqb (si_name s')) deps_names = true) by (apply in_deps_names; exists s; split; [exact Hs|congruence]).
  destruct (A s' S1) as [B|B].
  - destruct (TS s Hs) as (n & v & E). destruct (TS s' B) as (n' & v' & E'). rewrite (db_name_eq _ _ _ _ _ _ E E' (eq_sym S2)). exact S1.
  - exfalso. pose proof deps_vec as C. rewrite forallb_forall in C. specialize (C s' B). rewrite NM in C. discriminate.
Qed.
