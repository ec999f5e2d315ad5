(** Properties of the command-line tools. *)
From Verif Require Import Base Bytes Utf8 RBuf WBuf Values Key Header Obj TreeObj File FileOpen Column ColRead ColType SliceRead ColOps RObj Coll
  TreeWrite TreeSession StreamerDb Interp Dump Spec SpecTree SpecDump SessFacts FileFacts TreeFacts DeriveWrite PropTree PropNames PropColl CollFacts SpecRoom PropRoom Sample SampleOpen.

(** ** The cases of the tool *)

Lemma arm_prim p : arm_of (rust_scalar p) = Some (DAs (CPrim p)).
Proof. destruct p; vm_compute; reflexivity. Qed.
Lemma arm_string : arm_of (bs "String") = Some (DAs CString).
Proof. vm_compute. reflexivity. Qed.
Lemma arm_vec p : has_case (TVec (TPrim p)) = true -> arm_of (bs "Vec<" ++ rust_scalar p ++ bs ">") = Some (DAs (CVec (CPrim p))).
Proof. destruct p; try discriminate; intros _; vm_compute; reflexivity. Qed.
Lemma arm_vec64 p : has_case (TVec (TPrim p)) = false ->
  arm_of (bs "Vec<" ++ rust_scalar p ++ bs ">") = None /\ sized (bs "Vec<" ++ rust_scalar p ++ bs ">") = None.
Proof. destruct p; try discriminate; intros _; vm_compute; auto. Qed.

Lemma arms_start : forallb (fun x => negb (match fst x with 91 :: _ => true | _ => false end)) dump_arms = true.
Proof. vm_compute. reflexivity. Qed.
Lemma arm_bracket s : arm_of (91 :: s) = None.
Proof.
  unfold arm_of. pose proof arms_start as H. induction dump_arms as [|[n t] l IH]; [reflexivity|]. cbn [forallb] in H.
  apply andb_true_iff in H. destruct H as [H1 H2]. cbn [find fst]. specialize (IH H2).
  destruct n as [|c n]; [exact IH|]. cbn [beqb fst] in *. destruct (Z.eqb_spec c 91) as [->|_]; [discriminate|exact IH].
Qed.

Lemma span_all p a b : forallb p a = true -> match b with c :: _ => p c = false | [] => True end -> span p (a ++ b) = (a, b).
Proof.
  induction a as [|x a IH]; cbn [forallb app span]; intros H N.
  - destruct b as [|c b]; [reflexivity|]. cbn [span]. now rewrite N.
  - apply andb_true_iff in H. destruct H as [-> H]. now rewrite IH.
Qed.
Lemma digits_all d : Forall (fun c => 48 <= c <= 57) d -> forallb is_digit d = true.
Proof.
  induction 1 as [|c d H _ IH]; [reflexivity|]. cbn [forallb]. rewrite IH. unfold is_digit.
  now rewrite (proj2 (Z.leb_le 48 c)), (proj2 (Z.leb_le c 57)) by lia.
Qed.
Lemma sized_array p n d : decimal n d -> sized (bs "[" ++ rust_scalar p ++ bs ";" ++ d ++ bs "]") = Some (rust_scalar p, d).
Proof.
  intros (NE & F & _). change (bs "[") with [91]. cbn [app sized]. rewrite Z.eqb_refl. unfold sized_here.
  rewrite (span_all _ (rust_scalar p) (bs ";" ++ d ++ bs "]")) by (destruct p; vm_compute; reflexivity).
  change (bs ";") with [59]. change (bs "]") with [93]. cbn [app].
  rewrite (span_all is_digit d [93]) by (try apply digits_all; auto).
  destruct d as [|c d]; [contradiction|]. destruct p; reflexivity.
Qed.
Lemma sized_elem p : find (fun x => beqb (fst x) (rust_scalar p)) sized_elems = Some (rust_scalar p, TPrim p).
Proof. destruct p; vm_compute; reflexivity. Qed.

(** ** One branch *)

Lemma column_dumped fo c b : column_type (c_type c) -> shows_column fo c b -> column_readable c ->
  dump_branch (f_disk fo) (f_sinfos fo) b = Ok (if has_case (c_type c) then Some (map embv (c_values c)) else None).
Proof.
  intros CT (_ & _ & _ & V & _ & NM & _) [NB VF]. destruct (NM NB) as (n & N & CN).
  destruct (rust_names_columns _ _ CN) as (r & R & RN).
  pose proof (proj2 (proj1 (V NB)) VF) as VO. unfold values_of in VO.
  assert (A : as_iter_c (f_disk fo) (f_sinfos fo) (emb (c_type c)) b = Ok (map embv (c_values c))).
  { rewrite C48_other_types_as_before, VO. reflexivity. }
  unfold dump_branch, interpretation. rewrite N. cbn [rbind]. rewrite R. cbn [rbind].
  destruct (c_type c) as [p| |t|k t]; inversion RN; subst.
  - rewrite arm_prim. cbn [emb] in A. rewrite A. reflexivity.
  - rewrite arm_string. cbn [emb] in A. rewrite A. reflexivity.
  - destruct (has_case (TVec (TPrim p))) eqn:HC.
    + rewrite arm_vec by exact HC. cbn [emb] in A. rewrite A. reflexivity.
    + destruct (arm_vec64 p HC) as [-> ->]. reflexivity.
  - change (bs "[" ++ rust_scalar p ++ bs ";" ++ d ++ bs "]") with (91 :: (rust_scalar p ++ bs ";" ++ d ++ bs "]")) at 1.
    rewrite arm_bracket. rewrite (sized_array p k d) by assumption.
    match goal with H : decimal k d |- _ => destruct H as (_ & _ & U & _) end. fold (undec d) in U. rewrite U.
    cbn [column_type] in CT. destruct CT as [_ CT]. rewrite (proj2 (Z.leb_gt _ _)) by lia. rewrite sized_elem, Nat2Z.id.
    assert (G : as_iter_unchecked_c (f_disk fo) (f_sinfos fo) (emb (TArr k (TPrim p))) b = Ok (map embv (c_values c))).
    { unfold as_iter in VO. rewrite N in VO. cbn [rbind] in VO. destruct (existsb _ _) in VO; [|discriminate].
      unfold as_iter_unchecked_c. rewrite (get_basket_emb _ _ (unmarshal (TArr k (TPrim p))) _ embv) by apply emb_reads. now rewrite VO. }
    cbn [emb] in G |- *. rewrite G. reflexivity.
Qed.

(** ** Headings *)

Lemma fold_dec r : forall a, Forall (fun c => 48 <= c <= 57) r -> 0 <= a ->
  a * 10 ^ Z.of_nat (length r) <= fold_left (fun a c => 10 * a + (c - 48)) r a.
Proof.
  induction r as [|c r IH]; intros a F A; cbn [fold_left length]; [change (10 ^ Z.of_nat 0) with 1; lia|].
  inversion F; subst. specialize (IH (10 * a + (c - 48)) ltac:(assumption) ltac:(lia)).
  rewrite Nat2Z.inj_succ, Z.pow_succ_r by lia. pose proof (Z.pow_pos_nonneg 10 (Z.of_nat (length r)) ltac:(lia) ltac:(lia)). nia.
Qed.
Lemma decimal_short n d : decimal n d -> (0 < n)%nat -> Z.of_nat n < 2 ^ 31 -> (length d <= 10)%nat.
Proof.
  intros (NE & F & V & L) P B. specialize (L P). destruct d as [|c d]; [contradiction|]. cbn [hd] in L. inversion F; subst. cbn [fold_left] in V.
  pose proof (fold_dec d (10 * 0 + (c - 48)) ltac:(assumption) ltac:(lia)) as H. rewrite V in H.
  destruct (le_gt_dec (length d) 9) as [Q|Q]; [cbn [length]; lia|].
  assert (10 ^ 10 <= 10 ^ Z.of_nat (length d)) by (apply Z.pow_le_mono_r; lia). change (10 ^ 10) with 10000000000 in *. change (2 ^ 31) with 2147483648 in B. nia.
Qed.
Lemma named_short t n : column_type t -> cpp_named t n -> (length n <= 30)%nat.
Proof.
  intros CT H. destruct H as [p| |p|k p d D].
  - destruct p; vm_compute; lia.
  - vm_compute; lia.
  - rewrite !app_length. destruct p; vm_compute; lia.
  - cbn [column_type] in CT. pose proof (decimal_short k d D (proj1 CT) (proj2 CT)) as Q. rewrite !app_length.
    assert (length (cpp_scalar p) <= 8)%nat by (destruct p; vm_compute; lia).
    change (length (bs "[")) with 1%nat. change (length (bs "]")) with 1%nat. lia.
Qed.
Lemma truncate_short n s : (length s <= n)%nat -> truncate n s = Ok s.
Proof. intros H. unfold truncate. now rewrite skipn_all2. Qed.

(** A column in the heading: its name, its C++ type and its Rust type. *)
Definition heads (c : column) (h : bytes * bytes * bytes) : Prop :=
  fst (fst h) = c_name c /\ cpp_named (c_type c) (snd (fst h)) /\ rust_named (c_type c) (snd h).

Lemma column_shown fo c b : column_type (c_type c) -> shows_column fo c b -> no_bracket (c_name c) ->
  exists h, show_branch (f_sinfos fo) b = Ok h /\ heads c h.
Proof.
  intros CT (BN & _ & _ & _ & _ & NM & _) NB. destruct (NM NB) as (n & N & CN). destruct (rust_names_columns _ _ CN) as (r & R & RN).
  exists (c_name c, n, r). split; [|now split; [|split]]. unfold show_branch, interpretation. rewrite N. cbn [rbind].
  rewrite truncate_short by (eapply named_short; eassumption). cbn [rbind]. rewrite R, BN. reflexivity.
Qed.

(** ** One tree *)

Lemma res_map_all {A B C} (g : A -> res B) (P : C -> B -> Prop) (l : list A) (cs : list C) :
  Forall2 (fun c a => exists b, g a = Ok b /\ P c b) cs l -> exists bs, res_map g l = Ok bs /\ Forall2 P cs bs.
Proof.
  induction 1 as [|c a cs l (b & E & Q) _ (bs' & IH & F)]; [exists []; split; [reflexivity|constructor]|].
  exists (b :: bs'). cbn [res_map]. rewrite E. cbn [rbind]. rewrite IH. cbn [rbind]. split; [reflexivity|now constructor].
Qed.

Lemma tree_flat fo t r : shows_table fo t r -> tree_branches_r r = t_branches r.
Proof.
  intros (_ & _ & F). apply flat_branches. induction F as [|c b cs l (_ & S & _) _ IH]; constructor; assumption.
Qed.

Lemma table_shown fo t r : table_ok t -> shows_table fo t r -> Forall (fun c => no_bracket (c_name c)) (columns (tb_setup t)) ->
  exists hs, show_tree (f_sinfos fo) r = Ok hs /\ Forall2 heads (columns (tb_setup t)) hs.
Proof.
  intros (_ & _ & TK) S NB. unfold show_tree. rewrite (tree_flat fo t r S). apply res_map_all. destruct S as (_ & _ & F). revert TK NB.
  induction F as [|c b cs l H _ IH]; intros TK NB; constructor; inversion TK; inversion NB; subst; [|now apply IH].
  apply column_shown; try assumption. now match goal with H : SpecTree.column_ok _ _ |- _ => destruct H end.
Qed.

Lemma table_dumped fo t r : table_ok t -> shows_table fo t r -> Forall column_readable (columns (tb_setup t)) ->
  dump_tree (f_disk fo) (f_sinfos fo) r = Ok (table_lines t).
Proof.
  intros (_ & _ & TK) S RD. unfold dump_tree. rewrite (tree_flat fo t r S). destruct S as (_ & E & F). rewrite E, Nat2Z.id.
  match goal with |- context [res_map ?g _] => set (h := g) end.
  assert (Q : res_map h (t_branches r) =
    Ok (map (fun c => if has_case (c_type c) then [(c_name c, map embv (c_values c))] else []) (columns (tb_setup t)))).
  { clear E. revert TK RD. induction F as [|c b cs l H _ IH]; intros TK RD; [reflexivity|]. inversion TK; inversion RD; subst.
    assert (CT : column_type (c_type c)) by (now match goal with H : SpecTree.column_ok _ _ |- _ => destruct H end).
    cbn [res_map map]. rewrite IH by assumption. unfold h at 1. rewrite (column_dumped fo c b) by assumption.
    cbn [rbind]. destruct H as (-> & _). now destruct (has_case (c_type c)). }
  rewrite Q. cbn [rbind]. f_equal. unfold table_lines. apply flat_map_ext. intros i. clear.
  induction (columns (tb_setup t)) as [|c cs IH]; [reflexivity|]. cbn [map concat filter].
  destruct (has_case (c_type c)); cbn [app map]; [|exact IH]. rewrite IH. cbn [fst snd]. now rewrite nth_error_map.
Qed.

(** ** C50: what the tools print *)

Lemma newest_exists ts t : In t ts -> exists u, newest ts (tb_name t) u.
Proof.
  induction ts as [|x ts IH]; intros I; [destruct I|].
  destruct (in_dec (list_eq_dec Z.eq_dec) (tb_name t) (map tb_name ts)) as [J|J].
  - apply in_map_iff in J. destruct J as (y & E & Y).
    assert (exists u, newest ts (tb_name t) u) as (u & a & b & -> & U & L).
    { clear IH I. revert y E Y. induction ts as [|z ts IH]; intros y E Y; [destruct Y|].
      destruct (in_dec (list_eq_dec Z.eq_dec) (tb_name t) (map tb_name ts)) as [K|K].
      - apply in_map_iff in K. destruct K as (w & F & W). destruct (IH w F W) as (u & a & b & -> & U & L). exists u, (z :: a), b. auto.
      - destruct Y as [->|Y]; [|destruct K; rewrite <- E; now apply in_map]. exists y, [], ts. split; [reflexivity|]. split; [exact E|].
        intros v V Q. apply K. rewrite <- Q. now apply in_map. }
    exists u, (x :: a), b. auto.
  - destruct I as [->|I]; [|destruct J; now apply in_map]. exists t, [], ts. split; [reflexivity|]. split; [reflexivity|].
    intros v V Q. apply J. rewrite <- Q. now apply in_map.
Qed.
Lemma newest_in ts n u : newest ts n u -> In u ts.
Proof. intros (a & b & -> & _). apply in_elt. Qed.

Lemma newest_shown fo ts n u : shows_tables fo ts -> newest ts n u -> ~ In 59 n -> exists r, get_tree fo n = Ok r /\ shows_table fo u r.
Proof. intros (_ & G & _) (a & b & E & U & L) N. subst n. apply (G a u b E); assumption. Qed.

(** Dumping a file prints, for every tree in the order of writing, its name, its columns
    with their types, and the value of every column in every row; vectors of 64-bit
    integers are left out, and for every name it is the newest tree of that name that is
    printed. *)
Theorem C50_dump_prints_the_file path ts es f : finished path ts es f -> short_path path ->
  (forall t, In t ts -> ~ In 59 (tb_name t)) -> all_readable ts ->
  exists out, dump_file (f_disk f) = Ok out /\
    Forall2 (fun t o => du_name o = tb_name t /\
        exists u, newest ts (tb_name t) u /\ Forall2 heads (columns (tb_setup u)) (du_head o) /\ du_lines o = table_lines u) ts out.
Proof.
  intros H S N RD. pose proof H as (_ & TK & _). destruct (C13_file_gives_back_its_tables _ _ _ _ H S) as (fo & O & ST).
  unfold dump_file. rewrite O. cbn [unwrap rbind]. pose proof ST as (KN & _). rewrite KN. apply res_map_all.
  enough (Q : forall l, (forall t, In t l -> In t ts) -> Forall2 (fun t n => exists o,
     (t0 <-? unwrap (get_tree fo n) ;; h <-? show_tree (f_sinfos fo) t0 ;; l <-? dump_tree (f_disk fo) (f_sinfos fo) t0 ;; Ok (Dumped n h l)) = Ok o /\
     du_name o = tb_name t /\ exists u, newest ts (tb_name t) u /\ Forall2 heads (columns (tb_setup u)) (du_head o) /\ du_lines o = table_lines u)
       l (map tb_name l)) by (apply Q; auto).
  induction l as [|t l IH]; intros I; constructor; [|apply IH; intros; apply I; now right]. clear IH.
  destruct (newest_exists ts t (I t (or_introl eq_refl))) as (u & U). pose proof (newest_in _ _ _ U) as IU.
  destruct (newest_shown fo ts _ u ST U (N t (I t (or_introl eq_refl)))) as (r & R & SH).
  rewrite Forall_forall in TK. unfold all_readable in RD. rewrite Forall_forall in RD.
  destruct (table_shown fo u r (TK u IU) SH) as (hs & HS & HF). { eapply Forall_impl; [|exact (RD u IU)]. now intros c []. }
  exists (Dumped (tb_name t) hs (table_lines u)). rewrite R. cbn [unwrap rbind]. rewrite HS. cbn [rbind].
  rewrite (table_dumped fo u r (TK u IU) SH (RD u IU)). cbn [rbind]. split; [reflexivity|]. split; [reflexivity|]. exists u. auto.
Qed.

Lemma newest_distinct ts t u : NoDup (map tb_name ts) -> In t ts -> newest ts (tb_name t) u -> u = t.
Proof.
  intros D I (a & b & -> & U & L). apply in_app_or in I. rewrite map_app in D. cbn [map] in D. destruct I as [I|[I|I]]; [|exact I|].
  - apply NoDup_remove_2 in D. destruct D. rewrite U. apply in_or_app. left. now apply in_map.
  - now destruct (L t I).
Qed.
(** When no two trees have the same name, every tree is printed. *)
Theorem C50_dump_prints_every_tree path ts es f : finished path ts es f -> short_path path ->
  (forall t, In t ts -> ~ In 59 (tb_name t)) -> all_readable ts -> NoDup (map tb_name ts) ->
  exists out, dump_file (f_disk f) = Ok out /\ map du_name out = map tb_name ts /\ map du_lines out = map table_lines ts /\
    Forall2 (fun t o => Forall2 heads (columns (tb_setup t)) (du_head o)) ts out.
Proof.
  intros H S N RD D. destruct (C50_dump_prints_the_file _ _ _ _ H S N RD) as (out & E & F). exists out. split; [exact E|]. clear E.
  assert (G : forall l, (forall t, In t l -> In t ts) -> forall out, Forall2 (fun t o => du_name o = tb_name t /\
        exists u, newest ts (tb_name t) u /\ Forall2 heads (columns (tb_setup u)) (du_head o) /\ du_lines o = table_lines u) l out ->
     map du_name out = map tb_name l /\ map du_lines out = map table_lines l /\ Forall2 (fun t o => Forall2 heads (columns (tb_setup t)) (du_head o)) l out).
  { clear F out. intros l I out F. induction F as [|t o l out (Q1 & u & U & Q2 & Q3) _ IH]; [now repeat split|].
    pose proof (newest_distinct ts t u D (I t (or_introl eq_refl)) U) as ->.
    destruct (IH (fun t H => I t (or_intror H))) as (I1 & I2 & I3). cbn [map]. rewrite Q1, Q3, I1, I2.
    split; [reflexivity|]. split; [reflexivity|]. now constructor. }
  now apply G.
Qed.

(** Listing a file prints the same names and headings, and the class and the empty title of
    every tree. *)
Theorem C50_ls_lists_the_file path ts es f : finished path ts es f -> short_path path ->
  (forall t, In t ts -> ~ In 59 (tb_name t)) -> no_brackets ts ->
  exists out, ls_file (f_disk f) = Ok out /\
    Forall2 (fun t o => ls_class o = bs "TTree" /\ ls_name o = tb_name t /\ ls_title o = [] /\
        exists u, newest ts (tb_name t) u /\ Forall2 heads (columns (tb_setup u)) (ls_head o)) ts out.
Proof.
  intros H S N NB. destruct (finished_closed _ _ _ _ H) as (keys & sbuf & recs & rest & C).
  destruct (cd_open _ _ _ _ _ _ _ _ C S) as (fo & O & _ & _ & _ & KS & ST). pose proof (cd_stored _ _ _ _ _ _ _ _ C) as SD.
  pose proof (cd_tables _ _ _ _ _ _ _ _ C) as TK. rewrite Forall_forall in TK.
  unfold no_brackets in NB. rewrite Forall_forall in NB.
  unfold ls_file. rewrite O. cbn [unwrap rbind]. rewrite KS. apply res_map_all.
  assert (I : forall t, In t ts -> In t ts) by auto. revert I SD. generalize ts at 1 3 5. clear KS C. intros l I SD. revert keys SD.
  induction l as [|t l IH]; intros keys SD; inversion SD; subst; [constructor|]. cbn [map]. constructor; [|apply IH; [intros; apply I; now right|assumption]].
  match goal with H : stored _ _ _ _ _ |- _ => destruct H as (cy & e & buf & m & tot & cols & EK & _) end. clear IH.
  destruct (newest_exists ts t (I t (or_introl eq_refl))) as (u & U). pose proof (newest_in _ _ _ U) as IU.
  destruct (newest_shown fo ts _ u ST U (N t (I t (or_introl eq_refl)))) as (r & R & SH).
  destruct (table_shown fo u r (TK u IU) SH (NB u IU)) as (hs & HS & HF).
  exists (Listed (bs "TTree") (tb_name t) [] hs). subst. cbn [calls tp_name].
  change (k_name (key_listed (mk_key (tb_name t) [] (bs "TTree") cy e buf))) with (tb_name t).
  rewrite R. cbn [unwrap rbind]. rewrite HS. cbn [rbind]. split; [reflexivity|]. split; [reflexivity|]. split; [reflexivity|]. split; [reflexivity|]. exists u. auto.
Qed.

Lemma F2_right {A B} (P : A -> B -> Prop) l m b : Forall2 P l m -> In b m -> exists a, In a l /\ P a b.
Proof.
  induction 1 as [|x y l m Q _ IH]; intros I; [destruct I|]. destruct I as [->|I]; [exists x; split; [now left|exact Q]|].
  destruct (IH I) as (a & X & Y). exists a. split; [now right|exact Y].
Qed.
(** It is not so that every column is printed: vectors of 64-bit integers are not. *)
Theorem C50_every_column_refuted path ts es f t c p : finished path ts es f -> short_path path ->
  (forall t, In t ts -> ~ In 59 (tb_name t)) -> all_readable ts ->
  newest ts (tb_name t) t -> In c (columns (tb_setup t)) -> In p [I64; U64] -> c_type c = TVec (TPrim p) ->
  (forall c', In c' (columns (tb_setup t)) -> c_name c' = c_name c -> c_type c' = c_type c) ->
  exists out, dump_file (f_disk f) = Ok out /\ length out = length ts /\
    forall o, In o out -> du_name o = tb_name t -> forall l, In l (du_lines o) -> snd (fst l) <> c_name c.
Proof.
  intros H S N RD NT IC IP CT ONE. destruct (C50_dump_prints_the_file _ _ _ _ H S N RD) as (out & E & F). exists out. split; [exact E|].
  assert (HC : has_case (c_type c) = false) by (rewrite CT; destruct IP as [<-|[<-|[]]]; reflexivity).
  split; [symmetry; clear -F; induction F; cbn [length]; congruence|]. intros o O D l L EQ.
  destruct (F2_right _ _ _ _ F O) as (t' & _ & Q1 & u & U & _ & Q2).
  assert (u = t) as ->.
  { destruct U as (a & b & E1 & U1 & U2). destruct NT as (a' & b' & E2 & _ & U2'). assert (TN : tb_name t' = tb_name t) by congruence. rewrite TN in *.
    clear -E1 E2 U1 U2 U2'. rewrite E1 in E2. clear E1. revert a' E2. induction a as [|x a IH]; intros [|y a'] E2; cbn [app] in E2; injection E2 as E3 E4.
    - exact E3.
    - subst b. exfalso. apply (U2 t); [|reflexivity]. apply in_elt.
    - subst b'. exfalso. apply (U2' u); [|exact U1]. apply in_elt.
    - now apply (IH a'). }
  rewrite Q2 in L. unfold table_lines in L. apply in_flat_map in L. destruct L as (i & _ & L). apply in_map_iff in L.
  destruct L as (c' & <- & L). apply filter_In in L. destruct L as [L1 L2]. cbn [fst snd] in EQ. specialize (ONE c' L1 EQ). congruence.
Qed.

(** It is not so that every tree is printed: two trees of one name are printed as the
    newer one, twice. *)
Theorem C50_every_tree_refuted path ts es f t : finished path ts es f -> short_path path ->
  (forall t, In t ts -> ~ In 59 (tb_name t)) -> all_readable ts ->
  In t ts -> (forall u, newest ts (tb_name t) u -> table_lines u <> table_lines t) ->
  exists out, dump_file (f_disk f) = Ok out /\
    forall o, In o out -> du_name o = tb_name t -> du_lines o <> table_lines t.
Proof.
  intros H S N RD I NE. destruct (C50_dump_prints_the_file _ _ _ _ H S N RD) as (out & E & F). exists out. split; [exact E|].
  intros o O D. destruct (F2_right _ _ _ _ F O) as (t' & _ & Q1 & u & U & _ & Q2). rewrite Q2. apply NE. now replace (tb_name t) with (tb_name t') by congruence.
Qed.

(** A tree whose name contains a semicolon makes both tools panic. *)
Lemma res_map_panics {A B} (g : A -> res B) l x : In x l -> g x = Panic -> (forall y, In y l -> g y = Panic \/ exists b, g y = Ok b) -> res_map g l = Panic.
Proof.
  induction l as [|y l IH]; intros I X Y; [destruct I|]. cbn [res_map]. destruct (Y y (or_introl eq_refl)) as [->|(b & E)]; [reflexivity|].
  rewrite E. cbn [rbind]. destruct I as [->|I]; [congruence|]. now rewrite IH by (auto; intros; apply Y; now right).
Qed.
Lemma semicolon_panics {L : decoders} fo d n : f_io fo = IORead d -> In 59 n -> unwrap (get_tree fo n) = Panic.
Proof.
  intros IO I. unfold get_tree, get_object. assert (F : freader fo = Ok d) by (unfold freader; now rewrite IO). rewrite F. cbn [rbind].
  unfold decode_name_cycle. destruct (filter (Z.eqb 59) n) as [|c l] eqn:Q.
  { exfalso. assert (In 59 []); [|assumption]. rewrite <- Q. apply filter_In. split; [exact I|reflexivity]. }
  rewrite zlen_cons. pose proof (zlen_nonneg l). destruct (1 + zlen l) as [|[p|p|]|p] eqn:Z; try lia; reflexivity.
Qed.
Theorem C50_semicolons_panic path ts es f t : finished path ts es f -> short_path path -> all_readable ts ->
  In t ts -> In 59 (tb_name t) -> dump_file (f_disk f) = Panic /\ ls_file (f_disk f) = Panic.
Proof.
  intros H S RD I SC. pose proof H as (_ & TK & _). destruct (finished_closed _ _ _ _ H) as (keys & sbuf & recs & rest & C).
  destruct (cd_open _ _ _ _ _ _ _ _ C S) as (fo & O & D & _ & _ & KS & ST). pose proof ST as (KN & _).
  assert (IO : exists d, f_io fo = IORead d).
  { clear -O. unfold open_file in O. repeat match type of O with (_ <-? ?x ;; _) = _ => destruct x; cbn [rbind] in O; try discriminate end.
    injection O as <-. eexists. reflexivity. }
  destruct IO as (d & IO).
  rewrite Forall_forall in TK. unfold all_readable in RD. rewrite Forall_forall in RD.
  assert (G : forall t, In t ts -> ~ In 59 (tb_name t) -> exists r hs ls, get_tree fo (tb_name t) = Ok r /\ show_tree (f_sinfos fo) r = Ok hs /\
     dump_tree (f_disk fo) (f_sinfos fo) r = Ok ls).
  { intros x X NX. destruct (newest_exists ts x X) as (u & U). pose proof (newest_in _ _ _ U) as IU.
    destruct (newest_shown fo ts _ u ST U NX) as (r & R & SH).
    destruct (table_shown fo u r (TK u IU) SH) as (hs & HS & HF). { eapply Forall_impl; [|exact (RD u IU)]. now intros c []. }
    exists r, hs, (table_lines u). split; [exact R|]. split; [exact HS|]. exact (table_dumped fo u r (TK u IU) SH (RD u IU)). }
  unfold dump_file, ls_file. rewrite O. cbn [unwrap rbind]. split.
  - apply (res_map_panics _ _ (tb_name t)); [rewrite KN; now apply in_map|now rewrite (semicolon_panics fo d _ IO SC)|].
    intros n Y. rewrite KN in Y. apply in_map_iff in Y. destruct Y as (x & <- & X).
    destruct (in_dec Z.eq_dec 59 (tb_name x)) as [J|J]; [left; now rewrite (semicolon_panics fo d _ IO J)|right].
    destruct (G x X J) as (r & hs & ls & -> & Q1 & Q2). cbn [unwrap rbind]. rewrite Q1. cbn [rbind]. rewrite Q2. cbn [rbind]. eauto.
  - unfold keys_name in KN. assert (K : In (tb_name t) (map k_name (d_keys (f_dir fo)))) by (rewrite KN; now apply in_map).
    apply in_map_iff in K. destruct K as (k & EK & K).
    apply (res_map_panics _ _ k); [exact K|rewrite EK; now rewrite (semicolon_panics fo d _ IO SC)|].
    intros y Y. assert (X : In (k_name y) (map tb_name ts)) by (rewrite <- KN; now apply in_map). apply in_map_iff in X. destruct X as (x & EX & X).
    rewrite <- EX. destruct (in_dec Z.eq_dec 59 (tb_name x)) as [J|J]; [left; now rewrite (semicolon_panics fo d _ IO J)|right].
    destruct (G x X J) as (r & hs & ls & -> & Q1 & Q2). cbn [unwrap rbind]. rewrite Q1. cbn [rbind]. eauto.
Qed.

(** ** The sample file *)

Example sample_dumps : exists out, dump_file (f_disk sample_file) = Ok out /\
  map du_name out = [bs "events"; bs "t2"; bs "events"] /\
  map du_lines out = [[(0%nat, bs "y", Some (CInt 1))]; []; [(0%nat, bs "y", Some (CInt 1))]] /\
  map (fun o => map fst (map fst (du_head o))) out = [[bs "y"]; []; [bs "y"]].
Proof. eexists. split; [unfold dump_file; rewrite sample_opens; vm_compute; reflexivity|]. vm_compute. auto. Qed.
Example sample_readable : all_readable tables0 /\ (forall t, In t tables0 -> ~ In 59 (tb_name t)) /\ short_path path0.
Proof.
  split; [|split].
  - unfold all_readable, tables0. repeat constructor; cbn [c_name c_type c_values]; try (vm_compute; intuition discriminate).
  - intros t [<-|[<-|[<-|[]]]]; vm_compute; intuition discriminate.
  - vm_compute. discriminate.
Qed.
(** A file with a column that is left out, and one that makes the tools panic. *)
Definition wide_table (n : bytes) : table := Table n [AddColumn (Column (bs "w") (TVec (TPrim I64)) [VList [VInt 1; VInt (-5)]])].
Example wide_file n : text n -> zlen n <= 100 -> ~ In 47 n ->
  exists es f, finished path0 [wide_table n] es f /\ all_readable [wide_table n] /\ newest [wide_table n] n (wide_table n).
Proof.
  intros T Z SL. destruct (C45_what_fits_is_written path0 [wide_table n]) as (es & f & F & _); [split; sample| | |apply few_short; sample| |].
  - constructor; [|constructor]. split; [exact T|]. cbn [tb_name wide_table]. split; [lia|]. cbn [columns tb_setup]. constructor; [|constructor].
    split; [vm_compute; discriminate|]. split; [sample|]. split; [cbn [c_name]; change (zlen (bs "w")) with 1; lia|sample].
  - constructor; [|constructor]. split; [exact SL|]. cbn [columns tb_setup wide_table]. constructor; [|constructor].
    split; [apply RoomFacts.steady_fits; cbn [steady c_type c_values]; left; repeat constructor; vm_compute; discriminate|vm_compute; discriminate].
  - unfold room. cbn [total]. unfold table_room. cbn [columns tb_setup total wide_table tb_name c_name]. unfold column_room. 
    set (c := Column _ _ _). change (column_bytes c) with 26. change (baskets c) with 1. change (zlen (c_values c)) with 1.
    change (zlen (c_name c)) with 1. change (zlen path0) with 6. pose proof (zlen_nonneg n). lia.
  - exists es, f. split; [exact F|]. split.
    + constructor; [|constructor]. cbn [columns tb_setup wide_table]. constructor; [|constructor]. split; [vm_compute; intuition discriminate|].
      repeat constructor; vm_compute; discriminate.
    + exists [], []. split; [reflexivity|]. split; [reflexivity|]. intros t [].
Qed.
Example wide_not_shown : exists f out, dump_file (f_disk f) = Ok out /\ length out = 1%nat /\
  forall o, In o out -> forall l, In l (du_lines o) -> snd (fst l) <> bs "w".
Proof.
  destruct (wide_file (bs "t")) as (es & f & F & R & N); [sample|vm_compute; discriminate|vm_compute; intuition discriminate|].
  destruct (C50_every_column_refuted path0 _ es f (wide_table (bs "t")) (Column (bs "w") (TVec (TPrim I64)) [VList [VInt 1; VInt (-5)]]) I64 F) as (out & E & L & O);
    try assumption; try (now left); try reflexivity.
  - vm_compute. discriminate.
  - intros t [<-|[]]. vm_compute. intuition discriminate.
  - intros c [<-|[]] _. reflexivity.
  - destruct (C50_dump_prints_the_file path0 _ es f F) as (out' & E' & FN); try assumption; [vm_compute; discriminate|intros t [<-|[]]; vm_compute; intuition discriminate|].
    assert (out' = out) as -> by congruence. exists f, out. split; [exact E|]. split; [exact L|]. intros o I. apply O; [exact I|].
    destruct (F2_right _ _ _ _ FN I) as (t & [<-|[]] & -> & _). reflexivity.
Qed.
Example semicolon_panics0 : exists f, dump_file (f_disk f) = Panic /\ ls_file (f_disk f) = Panic.
Proof.
  destruct (wide_file (bs "a;1")) as (es & f & F & R & N); [sample|vm_compute; discriminate|vm_compute; intuition discriminate|].
  exists f. apply (C50_semicolons_panic path0 _ es f (wide_table (bs "a;1")) F); try assumption; [vm_compute; discriminate|now left|vm_compute; auto].
Qed.
