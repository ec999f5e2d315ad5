(** A whole session: create a file, write trees into it, close it; then open it again
    and read the trees back. *)
From Verif Require Export TreeWrite.

(** ** Sessions *)
Record tprog := mkTP { tp_name : bytes; tp_ops : list bop }.

Section DB.
Variable db : bytes -> Z -> option sinfo.
Set Default Proof Using "Type".

(** One tree: declare its columns, write it; the result is what its callbacks saw. *)
Definition write_one (p : tprog) : FM (list (nat * event)) :=
  w <-! flift (build (wtree_new (tp_name p)) (tp_ops p)) ;;
  w' <-! tree_write db w ;; fret (wt_events w').
Fixpoint write_trees (ps : list tprog) : FM (list (list (nat * event))) :=
  match ps with
  | [] => fret []
  | p :: r => e <-! write_one p ;; es <-! write_trees r ;; fret (e :: es)
  end.
Definition session (path : bytes) (ps : list tprog) : file * res (list (list (nat * event))) :=
  let '(f, r) := create path in (flift r ;;! es <-! write_trees ps ;; close db ;;! fret es) f.

Lemma mono_write_one p : mono (write_one p). Proof. unfold write_one. mono. Qed.
Hint Resolve mono_write_one : mono.
Lemma mono_write_trees ps : mono (write_trees ps).
Proof. induction ps; cbn [write_trees]; mono. Qed.
Hint Resolve mono_write_trees : mono.

(** The table of class descriptions is one that can be marshalled. *)
Definition vec_names : list bytes :=
  flat_map (fun p => match w_class (TVec (TPrim p)) with Some c => [c] | None => [] end)
    [I8; U8; I16; U16; I32; U32; I64; U64; F32; F64; PBool].
Record db_ok : Prop := mkDbOk {
  db_sinfo_ok : forall n v s, db n v = Some s -> sinfo_ok s;
  db_names : exists names, zlen names < 2 ^ 30 /\ forall n v s, db n v = Some s -> In (si_name s) names;
  db_novec : forall n v s, db n v = Some s -> ~ In (si_name s) vec_names }.

Definition tprog_ok (p : tprog) : Prop :=
  names_ok (tp_name p) [] (bs "TTree") /\ Forall (cspec_ok (tp_name p)) (cols_of (tp_ops p)).

(** What is known of the file between two trees. *)
Definition src (s : sinfo) : Prop := from_db db s \/ vec_si s.
Definition incr (keys : list key) : Prop :=
  forall pre k post, keys = pre ++ k :: post -> Forall (fun k' => k_name k' = k_name k -> k_cycle k' < k_cycle k) pre.
(** The cycle of each key: the first 32767 of a name are counted, all others get the same. *)
Definition numbered (keys : list key) : Prop :=
  forall pre k post, keys = pre ++ k :: post ->
    k_cycle k = if times (k_name k) (map k_name pre) <? 32767 then times (k_name k) (map k_name pre) + 1 else -32768.
Definition evs_ok (p : tprog) (e : list (nat * event)) : Prop :=
  exists m, passes (cols_of (tp_ops p)) m /\
    e = concat (repeat (pass_events (cbs_of (tp_ops p)) (cols_of (tp_ops p))) (S m)).

Record sess (path : bytes) (ps : list tprog) (es : list (list (nat * event)))
  (keys : list key) (sis : list sinfo) (recs : list bytes) (f : file) : Prop := mkSess {
  se_lay : lay path keys sis recs f;
  se_st : Forall2 (fun p k => stored path recs (tp_name p) (cols_of (tp_ops p)) k) ps keys;
  se_cyc : numbered keys;
  se_incr : few (map tp_name ps) -> incr keys;
  se_uniq : uniq sis;
  se_src : Forall src sis;
  se_evs : Forall2 evs_ok ps es;
  se_slash : Forall (fun p => existsb (Z.eqb 47) (tp_name p) = false) ps }.

Lemma stored_name path recs name ss k : stored path recs name ss k ->
  k_name k = name /\ k_class k = bs "TTree" /\ key_good k.
Proof. intros (cy & e & buf & m & tot & cols & -> & H & _). split; [reflexivity|]. split; [reflexivity|exact H]. Qed.

Lemma stored_names path recs ps keys : Forall2 (fun p k => stored path recs (tp_name p) (cols_of (tp_ops p)) k) ps keys ->
  map k_name keys = map tp_name ps.
Proof. induction 1 as [|p k ps keys H _ IH]; [reflexivity|]. cbn [map]. rewrite IH. now destruct (stored_name _ _ _ _ _ H) as (-> & _). Qed.

Lemma fold_sis_add_uniq l sis : uniq sis -> uniq (fold_left sis_add l sis).
Proof. revert sis; induction l as [|a l IH]; intros sis H; cbn [fold_left]; auto. apply IH. now apply sis_add_uniq. Qed.
Lemma sis_add_Forall (Q : sinfo -> Prop) sis s : Forall Q sis -> Q s -> Forall Q (sis_add sis s).
Proof. intros H1 H2. destruct (sis_add_split sis s) as [->| ->]; [exact H1|]. apply Forall_app. auto. Qed.
Lemma fold_sis_add_Forall (Q : sinfo -> Prop) l sis : Forall Q l -> Forall Q sis -> Forall Q (fold_left sis_add l sis).
Proof. intros H. revert sis; induction H; intros sis HS; cbn [fold_left]; auto. apply IHForall. now apply sis_add_Forall. Qed.

Lemma incr_snoc keys k : incr keys -> Forall (fun k' => k_name k' = k_name k -> k_cycle k' < k_cycle k) keys -> incr (keys ++ [k]).
Proof.
  intros H1 H2 pre x post E. destruct post as [|y post] using rev_ind.
  - apply app_inj_tail in E as [<- <-]. exact H2.
  - clear IHpost. replace (pre ++ x :: post ++ [y]) with ((pre ++ x :: post) ++ [y]) in E by (rewrite <- app_assoc; reflexivity).
    apply app_inj_tail in E as [E _]. exact (H1 _ _ _ E).
Qed.

Lemma numbered_snoc keys k : numbered keys ->
  k_cycle k = (if times (k_name k) (map k_name keys) <? 32767 then times (k_name k) (map k_name keys) + 1 else -32768) -> numbered (keys ++ [k]).
Proof.
  intros H1 H2 pre x post E. destruct post as [|y post] using rev_ind.
  - apply app_inj_tail in E as [<- <-]. exact H2.
  - clear IHpost. replace (pre ++ x :: post ++ [y]) with ((pre ++ x :: post) ++ [y]) in E by (rewrite <- app_assoc; reflexivity).
    apply app_inj_tail in E as [E _]. exact (H1 _ _ _ E).
Qed.
Lemma numbered_init keys k : numbered (keys ++ [k]) -> numbered keys.
Proof. intros H pre x post E. apply (H pre x (post ++ [k])). rewrite E, <- app_assoc. reflexivity. Qed.
Lemma numbered_le keys : numbered keys -> Forall (fun k => k_cycle k <= 32767) keys.
Proof.
  intros H. apply Forall_forall. intros k I. apply in_split in I as (a & b & E). rewrite (H _ _ _ E).
  destruct (Z.ltb_spec (times (k_name k) (map k_name a)) 32767); lia.
Qed.
Lemma numbered_incr keys : numbered keys -> few (map k_name keys) -> incr keys.
Proof.
  intros H F pre k post E. apply Forall_forall. intros k' I EN. apply in_split in I as (a & b & ->).
  pose proof (H _ _ _ E) as C. rewrite E in F. pose proof (few_next _ _ _ _ F) as LT.
  rewrite <- app_assoc in E. cbn [app] in E. pose proof (H _ _ _ E) as C'. rewrite C, C', EN.
  rewrite map_app, times_app in LT |- *. cbn [map] in LT |- *. change (k_name k' :: map k_name b) with ([k_name k'] ++ map k_name b) in LT |- *.
  rewrite times_app, EN, times_one in LT |- *. pose proof (times_nonneg (k_name k) (map k_name b)).
  destruct (Z.ltb_spec (times (k_name k) (map k_name a)) 32767); [|lia].
  destruct (Z.ltb_spec (times (k_name k) (map k_name a) + (1 + times (k_name k) (map k_name b))) 32767); lia.
Qed.
Lemma scan_cycle_snoc n c ks k : forall m, scan_cycle n c (ks ++ [k]) m =
  (m' <-? scan_cycle n c ks m ;; scan_cycle n c [k] m').
Proof.
  induction ks as [|x ks IH]; intros m; [reflexivity|]. cbn [app scan_cycle]. destruct (negb _); [apply IH|]. destruct (negb _); [reflexivity|apply IH].
Qed.
Lemma numbered_scan keys n cls c : numbered keys -> scan_cycle n cls keys 0 = Ok c -> c = Z.min (times n (map k_name keys)) 32767.
Proof.
  clear db. revert c. induction keys as [|k keys IH] using rev_ind; intros c H S; [injection S as <-; reflexivity|].
  rewrite scan_cycle_snoc in S. apply rbind_inv in S as (c0 & S0 & S). specialize (IH _ (numbered_init _ _ H) S0).
  pose proof (H keys k [] eq_refl) as C. rewrite map_app, times_app. cbn [map].
  cbn [scan_cycle] in S. destruct (beqb (k_name k) n) eqn:EN; cbn [negb] in S.
  - apply beqb_eq in EN. destruct (beqb (k_class k) cls); cbn [negb] in S; [|discriminate]. injection S as <-.
    rewrite EN in C |- *. rewrite times_one. pose proof (times_nonneg n (map k_name keys)).
    destruct (Z.ltb_spec (times n (map k_name keys)) 32767); destruct (Z.ltb_spec c0 (k_cycle k)); lia.
  - injection S as <-. replace (times n [k_name k]) with 0; [lia|]. unfold times. cbn [filter]. rewrite beqb_sym, EN. reflexivity.
Qed.

Lemma write_one_all path ps es keys sis recs f p f' e : path_ok path -> sess path ps es keys sis recs f -> tprog_ok p ->
  write_one p f = (f', Ok e) -> zlen (f_disk f') <= kStartBigFile ->
  exists keys' sis' recs', sess path (ps ++ [p]) (es ++ [e]) keys' sis' recs' f' /\ grows recs recs' /\
    exists w w' k, build (wtree_new (tp_name p)) (tp_ops p) = Ok w /\ tree_write db w f = (f', Ok w') /\ keys' = keys ++ [k] /\
      stored_as path recs' (tp_name p) (cols_of (tp_ops p)) (wt_cols w') (t_tot (wt_tree w')) k.
Proof.
  intros P S (N & W) H HD. unfold write_one in H.
  apply fbind_inv in H as (f1 & w & H1 & H). apply flift_inv in H1 as [-> H1].
  apply fbind_inv in H as (f1 & w' & H2 & H). injection H as <- <-.
  destruct (tree_write_all db path keys sis recs f (tp_name p) (tp_ops p) w f1 w' P (se_lay _ _ _ _ _ _ _ S) (numbered_le _ (se_cyc _ _ _ _ _ _ _ S))
    N W H1 H2 HD)
    as (SL & recs' & k & si & l & m & G & L & ED & VL & STA & (c & SC & KC) & PA & EV).
  pose proof (stored_as_stored _ _ _ _ _ _ _ STA) as ST.
  exists (keys ++ [k]), (fold_left sis_add l (sis_add sis si)), recs'. split; [|split; [exact G|exists w, w', k; auto]].
  destruct (stored_name _ _ _ _ _ ST) as (KN & _).
  assert (NB : numbered (keys ++ [k])).
  { apply numbered_snoc; [exact (se_cyc _ _ _ _ _ _ _ S)|]. rewrite KN, KC, (numbered_scan _ _ _ _ (se_cyc _ _ _ _ _ _ _ S) SC).
    destruct (Z.ltb_spec (times (tp_name p) (map k_name keys)) 32767).
    - rewrite Z.min_l by lia. apply to_i16_id. pose proof (times_nonneg (tp_name p) (map k_name keys)). red; lia.
    - rewrite Z.min_r by lia. reflexivity. }
  assert (ST2 : Forall2 (fun p k => stored path recs' (tp_name p) (cols_of (tp_ops p)) k) (ps ++ [p]) (keys ++ [k])).
  { apply Forall2_app; [|constructor; [exact ST|constructor]].
    eapply Forall2_weaken; [|exact (se_st _ _ _ _ _ _ _ S)]. cbv beta. intros a b. now apply stored_grows. }
  constructor.
  - exact L.
  - exact ST2.
  - exact NB.
  - intros FW. rewrite <- (stored_names _ _ _ _ ST2) in FW. exact (numbered_incr _ NB FW).
  - apply fold_sis_add_uniq. apply sis_add_uniq. exact (se_uniq _ _ _ _ _ _ _ S).
  - apply fold_sis_add_Forall; [eapply Forall_impl; [|exact VL]; intros a; right; assumption|].
    apply sis_add_Forall; [exact (se_src _ _ _ _ _ _ _ S)|]. left. exists (bs "TTree"), 20. exact ED.
  - apply Forall2_app; [exact (se_evs _ _ _ _ _ _ _ S)|]. constructor; [|constructor]. exists m. split; [exact PA|exact EV].
  - apply Forall_app. split; [exact (se_slash _ _ _ _ _ _ _ S)|]. constructor; [exact SL|constructor].
Qed.

Lemma write_one_ok path ps es keys sis recs f p f' e : path_ok path -> sess path ps es keys sis recs f -> tprog_ok p ->
  write_one p f = (f', Ok e) -> zlen (f_disk f') <= kStartBigFile ->
  exists keys' sis' recs', sess path (ps ++ [p]) (es ++ [e]) keys' sis' recs' f' /\ grows recs recs'.
Proof.
  intros P S T H HD. destruct (write_one_all _ _ _ _ _ _ _ _ _ _ P S T H HD) as (keys' & sis' & recs' & S' & G & _). eauto.
Qed.

Lemma write_trees_ok path ps' : path_ok path -> Forall tprog_ok ps' -> forall ps es keys sis recs f f' es',
  sess path ps es keys sis recs f ->
  write_trees ps' f = (f', Ok es') -> zlen (f_disk f') <= kStartBigFile ->
  exists keys' sis' recs', sess path (ps ++ ps') (es ++ es') keys' sis' recs' f' /\ grows recs recs'.
Proof.
  intros P. induction 1 as [|p ps' T _ IH]; intros ps es keys sis recs f f' es' S H D; cbn [write_trees] in H.
  - injection H as <- <-. exists keys, sis, recs. rewrite !app_nil_r. split; [exact S|apply grows_refl].
  - apply fbind_inv in H as (f1 & e & H1 & H). apply fbind_inv in H as (f2 & es2 & H2 & H). injection H as <- <-.
    assert (D1 : zlen (f_disk f1) <= kStartBigFile).
    { eapply Z.le_trans; [|exact D]. eapply mono_disk; [|exact H2]. mono. }
    destruct (write_one_ok _ _ _ _ _ _ _ _ _ _ P S T H1 D1) as (k1 & s1 & r1 & S1 & G1).
    destruct (IH _ _ _ _ _ _ _ _ S1 H2 D) as (k2 & s2 & r2 & S2 & G2).
    exists k2, s2, r2. rewrite <- !app_assoc in S2. split; [exact S2|eapply grows_trans; eauto].
Qed.

Lemma sess_create path : path_ok path -> sess path [] [] [] [] [] (file0 path).
Proof.
  intros P. constructor; [exact (lay_create path P)|constructor| | |constructor|constructor|constructor|constructor].
  - intros [|x pre] y post E; discriminate.
  - intros _ [|x pre] y post E; discriminate.
Qed.

(** ** Class descriptions at closing *)
Lemma vec_si_ok s : vec_si s -> sinfo_ok s /\ In (si_name s) vec_names /\
  Forall (fun e => exists el a b, e = SStl el a b /\ e_ename el = si_name s) (si_elems (sinfo_seen s)).
Proof. clear db.
  intros (t & H). destruct t as [p| | |]; try discriminate.
  assert (PB : p <> PBool) by (intros ->; discriminate).
  cbn [vec_sinfo] in H. rewrite vec_class in H by exact PB.
  destruct (enum_of_prim p) as [e|] eqn:EE; [|discriminate]. injection H as <-.
  destruct (vec_class_facts p PB) as (_ & _ & SO). set (c := bs "vector<" ++ prim_name p ++ bs ">") in *.
  assert (HE : is_i32 e) by (destruct p; cbn in EE; try discriminate; injection EE as <-; red; lia).
  assert (NK : named_ok (new_named c [])) by (apply named_ok_new; [exact SO|exact str_ok_nil]).
  split; [|split].
  - unfold sinfo_ok. cbn [si_named si_chksum si_clsver si_elems]. split; [exact NK|].
    split; [red; cbn; lia|]. split; [red; lia|]. split; [|rewrite zlen_cons, (@zlen_nil streamer); lia].
    constructor; [|constructor]. split; [|split; [exact HE|reflexivity]].
    unfold s_elem, elem_ok. cbn [e_named e_etype e_esize e_arrlen e_arrdim e_maxidx e_ename].
    split; [exact NK|]. split; [reflexivity|]. split; [red; lia|]. split; [red; lia|]. split; [red; lia|]. split; [red; lia|].
    split; [reflexivity|]. split; [cbn [repeat]; do 5 (apply Forall_cons; [red; lia|]); apply Forall_nil|exact SO].
  - change (si_name _) with c. unfold c. destruct p; try congruence; cbv; tauto.
  - constructor; [|constructor]. cbn [streamer_seen]. eexists _, _, _. split; reflexivity.
Qed.

Lemma src_ok s : db_ok -> src s -> sinfo_ok s.
Proof. intros O [(n & v & H)|H]; [eapply db_sinfo_ok; eauto|now apply vec_si_ok]. Qed.

Lemma src_count sis : db_ok -> uniq sis -> Forall src sis -> zlen sis < 2 ^ 31.
Proof.
  intros O U S. destruct (db_names O) as (names & HN & HI).
  assert (LE : (length (map si_name sis) <= length (vec_names ++ names))%nat).
  { apply NoDup_incl_length; [exact U|]. intros x Hx. apply in_map_iff in Hx as (s & <- & Hs).
    rewrite Forall_forall in S. apply in_or_app. destruct (S s Hs) as [(n & v & H)|H]; [right; eauto|left].
    now apply vec_si_ok. }
  rewrite map_length, app_length in LE. rewrite !zlen_def in *. change (length vec_names) with 10%nat in LE. lia.
Qed.

Lemma src_sis_for sis t : db_ok -> Forall src sis -> col_ty t -> sis_for (map sinfo_seen (rev sis)) t.
Proof.
  intros O S C. unfold sis_for. destruct (w_class t) as [c|] eqn:EC; [|exact I]. destruct t as [| |t|]; try exact I.
  destruct t as [p| | |]; try contradiction. cbn [col_ty] in C. rewrite vec_class in EC by exact C. injection EC as <-.
  intros si F. unfold sinfo_get in F. apply find_some in F as [F1 F2]. apply beqb_eq in F2.
  apply in_rev in F1. apply in_map_iff in F1 as (s & <- & Hs). apply in_rev in Hs.
  rewrite Forall_forall in S. change (si_name (sinfo_seen s)) with (si_name s) in F2.
  destruct (S s Hs) as [(n & v & H)|H].
  - exfalso. apply (db_novec O _ _ _ H). rewrite F2. revert C; clear; intros C. destruct p; try congruence; cbv; tauto.
  - apply vec_si_ok in H as (_ & _ & H). rewrite F2 in H. exact H.
Qed.

(** ** Reading back *)

Lemma best_last r : forall k0 fs k, k0 :: r = fs ++ [k] -> incr (k0 :: r) -> Forall (fun x => k_name x = k_name k0) r ->
  best_key k0 r = k.
Proof.
  induction r as [|x r IH]; intros k0 fs k E I F; cbn [best_key].
  - destruct fs as [|? [|? ?]]; cbn in E; try discriminate. now injection E.
  - inversion F as [|? ? F1 F2]; subst. destruct fs as [|y fs]; [discriminate|]. injection E as <- E.
    assert (k_cycle k0 < k_cycle x) as LT.
    { pose proof (I [k0] x r eq_refl) as H. inversion H; subst. auto. }
    destruct (Z.leb_spec (k_cycle k0) (k_cycle x)); [|lia].
    apply (IH _ fs _ E); [|rewrite F1; exact F2].
    intros pre y post E'. specialize (I (k0 :: pre) y post). rewrite E' in I. specialize (I eq_refl). now inversion I.
Qed.

Lemma incr_filter keys n : incr keys -> incr (filter (fun k => beqb (k_name k) n) keys).
Proof.
  induction keys as [|a keys IH] using rev_ind; intros H; [exact H|].
  assert (H1 : incr keys).
  { intros pre k post E. apply (H pre k (post ++ [a])). rewrite E, <- app_assoc. reflexivity. }
  rewrite filter_app. cbn [filter]. destruct (beqb (k_name a) n); [|rewrite app_nil_r; auto].
  apply incr_snoc; [auto|]. specialize (H keys a [] eq_refl). rewrite Forall_forall in *.
  intros x Hx. apply filter_In in Hx as [Hx _]. auto.
Qed.

(** The last tree written under a name. *)
Definition latest (ps : list tprog) (n : bytes) : option tprog := find (fun p => beqb (tp_name p) n) (rev ps).

Lemma Forall2_snoc_inv {A B} (Q : A -> B -> Prop) l a m : Forall2 Q (l ++ [a]) m -> exists m' b, m = m' ++ [b] /\ Forall2 Q l m' /\ Q a b.
Proof.
  intros H. apply Forall2_app_inv_l in H as (m' & x & H1 & H2 & ->). inversion H2 as [|? b ? y HA HB]; subst.
  inversion HB; subst. eauto.
Qed.

Lemma latest_key (Q : tprog -> key -> Prop) ps n p : (forall p k, Q p k -> k_name k = tp_name p) -> forall keys, Forall2 Q ps keys ->
  incr keys -> latest ps n = Some p ->
  exists k0 r k, filter (fun k => beqb (k_name k) n) keys = k0 :: r /\ best_key k0 r = k /\ Q p k.
Proof.
  intros HQ keys F I L.
  assert (exists fs k, filter (fun k => beqb (k_name k) n) keys = fs ++ [k] /\ Q p k) as (fs & k & E & HK).
  { clear I. revert keys F L. induction ps as [|a ps IH] using rev_ind; intros keys F L; [discriminate|].
    unfold latest in L. rewrite rev_app_distr in L. cbn [rev app find] in L.
    apply Forall2_snoc_inv in F as (keys' & b & -> & F & HAB). rewrite filter_app. cbn [filter].
    rewrite (HQ _ _ HAB). destruct (beqb (tp_name a) n).
    - injection L as <-. eauto.
    - rewrite app_nil_r. exact (IH _ F L). }
  pose proof (incr_filter keys n I) as IF. rewrite E in IF.
  assert (FN : Forall (fun k => k_name k = n) (fs ++ [k])).
  { rewrite <- E. apply Forall_forall. intros x Hx. apply filter_In in Hx as [_ Hx]. now apply beqb_eq. }
  destruct (fs ++ [k]) as [|k0 r] eqn:EF; [destruct fs; discriminate|].
  exists k0, r, k. split; [exact E|]. split; [|exact HK].
  inversion FN as [|? ? F1 F2]; subst. now apply best_last with (fs := fs).
Qed.

Lemma best_listed r : forall k, best_key (key_listed k) (map key_listed r) = key_listed (best_key k r).
Proof.
  induction r as [|x r IH]; intros k; [reflexivity|]. cbn [map best_key].
  assert (CY : forall y, k_cycle (key_listed y) = k_cycle y) by (intros y; unfold key_listed, fix_class; destruct (beqb _ _); reflexivity).
  rewrite !CY. destruct (_ <=? _); apply IH.
Qed.
Lemma filter_listed n keys : filter (fun k => beqb (k_name k) n) (map key_listed keys) = map key_listed (filter (fun k => beqb (k_name k) n) keys).
Proof.
  induction keys as [|k keys IH]; [reflexivity|]. cbn [map filter].
  replace (k_name (key_listed k)) with (k_name k) by (unfold key_listed, fix_class; destruct (beqb (k_class (key_seen k)) _); reflexivity).
  rewrite IH. destruct (beqb _ _); reflexivity.
Qed.

Lemma flat_len {A} (g : A -> bytes) l : Forall (fun a => zlen (g a) <= zlen (flat_map g l)) l.
Proof.
  induction l as [|a l IH]; constructor; cbn [flat_map]; rewrite zlen_app.
  - pose proof (zlen_nonneg (flat_map g l)). lia.
  - eapply Forall_impl; [|exact IH]. intros x Hx. cbv beta in Hx. pose proof (zlen_nonneg (g a)). lia.
Qed.

Lemma dones_bound path name tn t recs i ds : path_ok path -> names_ok name tn (bs "TBasket") -> dones_ok path name tn t recs i ds ->
  Forall (fun v => wt t v /\ zlen (ent t v) < 2 ^ 31) (d_all ds).
Proof. clear db.
  intros P N. revert i. induction ds as [|d ds IH]; intros i H; [constructor|]. destruct H as (A & _ & B & W & R).
  unfold d_all. cbn [flat_map]. apply Forall_app. split; [|exact (IH _ R)].
  destruct A as (pre & post & _ & A). pose proof (E0_pos path P). pose proof (rsize_nonneg pre). pose proof (bkl_bounds _ _ N).
  unfold d_nbytes, payload in B. rewrite zlen_app in B. pose proof (zlen_nonneg (trailer (bkl name tn) t (d_vals d))).
  unfold kStartBigFile in B. pose proof (flat_len (ent t) (d_vals d)) as F. fold (ents t (d_vals d)) in F.
  rewrite Forall_forall in *. intros v I. split; [now apply W|]. specialize (F v I). cbv beta in F. lia.
Qed.

(** A tree as read: its name, number of entries and, column by column, the values and
    the only type they can be read as. *)
Definition tree_reads (D : bytes) (sis : list sinfo) (p : tprog) (t : tree branch) : Prop :=
  n_name (t_named t) = tp_name p /\
  exists m, passes (cols_of (tp_ops p)) m /\ t_entries t = Z.of_nat m /\
    Forall2 (fun s b => br_name b = cs_name s /\ branches_r b = [] /\
        b_entries (br_core b) = zlen (taken (S m) (cs_it s)) /\
        (no_brackets (cs_name s) -> as_iter D sis (cs_ty s) b = res_map (eread (cs_ty s)) (taken (S m) (cs_it s))) /\
        Forall (fun v => wt (cs_ty s) v /\ zlen (ent (cs_ty s) v) < 2 ^ 31) (taken (S m) (cs_it s)) /\
        (no_brackets (cs_name s) -> forall t', t' <> cs_ty s -> as_iter D sis t' b = Err ETypeMismatch) /\
        (item_type_name sis b = named_type (cs_name s) (cs_ty s) /\
         get_basket D sis (unmarshal (cs_ty s)) b = res_map (eread (cs_ty s)) (taken (S m) (cs_it s))) /\
        exists parts, concat parts = taken (S m) (cs_it s) /\
          length (b_seek (br_core b)) = length parts /\ length (b_bytes (br_core b)) = length parts /\
          b_entry (br_core b) = map (fun k => zlen (concat (firstn k parts))) (seq 0 (S (length parts))) /\
          (no_brackets (cs_name s) -> Forall2 (fun sl vs =>
               as_iter D sis (cs_ty s) (col_only (fst sl) (snd sl) b) = res_map (eread (cs_ty s)) vs)
             (combine (b_seek (br_core b)) (b_bytes (br_core b))) parts))
      (cols_of (tp_ops p)) (t_branches t).

Lemma number_Forall2 {A B} (Q : A -> B -> Prop) (g : Z * A -> B) l : (forall i a, In a l -> Q a (g (i, a))) -> forall i,
  Forall2 Q l (map g (number i l)).
Proof.
  induction l as [|a l IH]; intros H i; cbn [number map]; constructor; [apply H; now left|]. apply IH. intros j x Hx. apply H. now right.
Qed.

Lemma Forall2_compose {A B C} (Q : A -> B -> Prop) (R : B -> C -> Prop) (S : A -> C -> Prop) l m n :
  (forall a b c, Q a b -> R b c -> S a c) -> Forall2 Q l m -> Forall2 R m n -> Forall2 S l n.
Proof. intros H HQ. revert n. induction HQ; intros n HR; inversion HR; subst; constructor; eauto. Qed.

Lemma read_tree path recs sis D p k : path_ok path -> seg D (E0 path) (concat recs) -> zlen D < 2 ^ 63 ->
  (forall s, col_ty (cs_ty s) -> sis_for sis (cs_ty s)) -> tprog_ok p ->
  stored path recs (tp_name p) (cols_of (tp_ops p)) k ->
  exists t, key_object D (key_listed k) = Ok (OTree t) /\ tree_reads D sis p t.
Proof. clear db.
  intros P SG HD SI (_ & W) (cy & e & buf & m & tot & cols & K & KG & AT & EB & PA & MB & TK & F2).
  destruct (at_rec_seg D path recs P SG e _ AT) as (SK & E100).
  set (T := wtree_full (t_add (tree0 (tp_name p)) tot (Z.of_nat m)) cols) in *.
  assert (KB : k_buffer k = buf) by (rewrite K; reflexivity).
  assert (KE : k_seek k = e) by (rewrite K; reflexivity).
  assert (KN : k_nbytes k = k_keylen k + zlen buf) by (rewrite K; reflexivity).
  assert (KO : k_objlen k = zlen buf) by (rewrite K; reflexivity).
  assert (KC : k_class k = bs "TTree") by (rewrite K; reflexivity).
  assert (KP : 0 <= k_keylen k).
  { destruct (key_good_hdr k KG) as (LH & _). rewrite <- LH. apply zlen_nonneg. }
  assert (KL : key_listed k = key_seen k).
  { unfold key_listed, fix_class. change (k_class (key_seen k)) with (k_class k). rewrite KC. reflexivity. }
  clear K. unfold kStartBigFile in EB. pose proof (zlen_nonneg buf).
  exists (tree_seen T). split.
  - rewrite KL. unfold key_object. rewrite key_bytes_ok; [|exact KG|congruence|congruence|lia| |exact HD].
    + cbn [rbind]. change (k_class (key_seen k)) with (k_class k). rewrite KC.
      change (negb (known (bs "TTree"))) with false. cbv iota.
      change (k_keylen (key_seen k)) with (k_keylen k). rewrite KB.
      pose proof (tree_buf_len _ _ _ TK MB KP ltac:(lia)) as B4.
      assert (exists n, S (length buf) = S (S (S n))) as (n & ->).
      { rewrite zlen_def in B4. destruct (length buf) as [|[|n]] eqn:E; try lia. now exists n. }
      apply (sim0_rrun _ _ _ _ _ _ (tree_sim n T TK) MB); lia.
    + rewrite KE. unfold rec. rewrite KB. exact SK.
  - split; [reflexivity|]. exists m. split; [exact PA|]. split; [reflexivity|].
    change (t_branches (tree_seen T)) with (map (fun ab => set_top (wbr_seen (snd ab))) (map col_wbr (number 0 cols))).
    rewrite map_map.
    assert (FW : Forall2 (fun s c => cspec_ok (tp_name p) s /\ finished path (tp_name p) recs s (taken (S m) (cs_it s)) c)
                   (cols_of (tp_ops p)) cols).
    { clear - W F2. induction F2; inversion W; subst; constructor; auto. }
    eapply Forall2_compose; [|exact FW|apply (number_Forall2 (fun c b => b = col_branch c)); reflexivity].
    cbv beta. intros s c b ((C & N & WT) & ds & EV & L1 & L2 & CC) ->.
    destruct CC as (C1 & C2 & C3 & (mb & tb & en & CE & C4) & C5).
    assert (CC : col_core path (cs_name s) (tp_name p) (cs_ty s) recs ds (zlen (d_all ds)) c).
    { split; [exact C1|]. split; [exact C2|]. split; [exact C3|]. split; [|exact C5]. exists mb, tb, en. split; assumption. }
    split; [|split; [reflexivity|split; [|split; [|split; [|split; [|split]]]]]].
    + unfold br_name, col_branch, br_core. rewrite CE. reflexivity.
    + unfold col_branch, br_core. rewrite CE, EV. reflexivity.
    + intros NB. rewrite EV. apply as_iter_back with (path := path) (name := cs_name s) (tn := tp_name p) (recs := recs); auto.
    + rewrite EV. apply (dones_bound path (cs_name s) (tp_name p) (cs_ty s) recs 0 ds P N). apply C5.
    + intros NB t' HT. apply as_iter_other with (path := path) (name := cs_name s) (tn := tp_name p) (t := cs_ty s) (recs := recs) (ds := ds); auto.
    + split; [apply item_type_named with (name := cs_name s); auto|].
      rewrite EV. apply get_basket_back with (path := path) (name := cs_name s) (tn := tp_name p) (recs := recs); auto.
    + exists (map d_vals ds). assert (CC' := CC). destruct CC' as (_ & _ & _ & (mb' & tb' & en' & CE' & EN & _) & _).
      unfold col_branch, br_core. rewrite CE'. cbn [ccore bcore_seen b_seek b_bytes b_entry].
      split; [rewrite EV; unfold d_all; symmetry; apply flat_map_concat_map|]. split; [now rewrite !map_length|]. split; [now rewrite !map_length|].
      split.
      { rewrite EN. unfold d_entry. rewrite map_length. apply map_ext. intros j. unfold d_all. rewrite flat_map_concat_map, <- firstn_map. reflexivity. }
      intros NB.
      assert (G : forall a b, ds = a ++ b -> Forall2 (fun sl vs => as_iter D sis (cs_ty s)
          (col_only (fst sl) (snd sl) (col_branch c)) = res_map (eread (cs_ty s)) vs) (combine (map d_seek b) (map (d_nbytes (cs_name s) (tp_name p) (cs_ty s)) b)) (map d_vals b)).
      { intros a b. revert a. induction b as [|d b IH]; intros a E; [constructor|]. cbn [map combine]. constructor.
        - cbn [fst snd]. apply as_iter_only with (path := path) (recs := recs) (ds := ds) (a := a) (b := b); auto.
        - apply (IH (a ++ [d])). rewrite <- app_assoc. exact E. }
      rewrite <- CE'. exact (G [] ds eq_refl).
Qed.

(** ** The session as a whole *)
Theorem session_back path ps f es : db_ok -> path_ok path -> nbname path <= 1000 -> Forall tprog_ok ps -> few (map tp_name ps) ->
  session path ps = (f, Ok es) -> zlen (f_disk f) <= kStartBigFile ->
  exists fo, open_file (f_disk f) = Ok fo /\ keys_name fo = map tp_name ps /\ Forall2 evs_ok ps es /\
    (forall p, latest ps (tp_name p) = Some p -> existsb (Z.eqb 59) (tp_name p) = false ->
       exists t, get_tree fo (tp_name p) = Ok t /\ tree_reads (f_disk f) (f_sinfos fo) p t) /\
    (forall n, existsb (Z.eqb 59) n = false -> latest ps n = None -> get_tree fo n = Err EKeyNotInFile).
Proof.
  intros O P NB W NP H HD. unfold session in H. rewrite (FileLay.create_ok path P) in H.
  apply fbind_inv in H as (f0 & [] & H0 & H). apply flift_inv in H0 as [-> _].
  apply fbind_inv in H as (f1 & es1 & H1 & H). apply fbind_inv in H as (f2 & [] & H2 & H). injection H as <- <-.
  assert (D1 : zlen (f_disk f1) <= kStartBigFile).
  { eapply Z.le_trans; [|exact HD]. eapply mono_disk; [|exact H2]. mono. }
  destruct (write_trees_ok path ps P W [] [] [] [] [] _ _ _ (sess_create path P) H1 D1)
    as (keys & sis & recs & S & _).
  cbn [app] in S. destruct S as [L ST CY IN UN SR EV SL].
  pose proof (lay_bound path keys sis recs f1 P L D1) as LB. destruct L as (log & -> & LL).
  pose proof (E0_pos path P) as HE0. pose proof (rsize_nonneg recs) as HR.
  assert (G : Forall key_good keys).
  { clear - ST. induction ST as [|p k ps keys H _ IH]; constructor; [|exact IH]. now apply stored_name in H. }
  destruct (close_bwd db path keys sis log (E0 path + rsize recs) f2 P G ltac:(lia) H2 HD) as (NK & sis' & sbuf & DE & SB & HE).
  rewrite (close_fwd db path keys sis log (E0 path + rsize recs) sis' sbuf P G NK ltac:(lia) DE SB HE) in H2. apply (f_equal fst) in H2. cbn [fst] in H2. subst f2.
  unfold f_disk in HD |- *. cbn [f_io] in HD |- *.
  set (D := disk_of (log ++ close_log path keys sbuf (E0 path + rsize recs))) in *.
  destruct (deep_ext db _ _ DE) as (ext & EX & FE).
  assert (SR' : Forall src sis').
  { rewrite EX. apply Forall_app. split; [exact SR|]. eapply Forall_impl; [|exact FE]. intros a. left. assumption. }
  pose proof (deep_uniq db _ _ DE UN) as UN'.
  assert (SO : Forall sinfo_ok sis') by (eapply Forall_impl; [|exact SR']; intros a; apply src_ok; exact O).
  pose proof (src_count _ O UN' SR') as SC.
  destruct (disk_closed path keys recs log sbuf P LL HE) as (_ & LD). fold D in LD.
  destruct (closed_segs path keys recs log sbuf P LL HE) as (_ & _ & SG & _). fold D in SG.
  destruct (closed_sizes path keys recs sbuf P HE) as (Z0 & Z1 & Z2 & Z3 & Z4 & _).
  assert (S4 : 3 <= zlen sbuf).
  { pose proof (key_len_pos _ _ _ names_ok_si) as Ls. fold si_keylen in Ls.
    assert (4 <= zlen sbuf); [|lia]. apply (sinfos_buf_len si_keylen sis' sbuf SO SC SB); [lia|].
    match type of Z2 with ?a < ?b => assert (Z5 : b = a + (si_keylen + zlen sbuf)) by (unfold skey; rewrite mk_key_nbytes; reflexivity) end.
    lia. }
  pose proof (opens_closed path keys recs log sbuf sis' P G NK LL HE NB SO SC SB S4) as OP. fold D in OP.
  set (fo := mkFile _ _ _ _ _ _) in OP. exists fo. split; [exact OP|].
  assert (KN : forall p k, stored path recs (tp_name p) (cols_of (tp_ops p)) k -> k_name k = tp_name p) by (intros p k X; now apply stored_name in X).
  assert (DC : forall n, existsb (Z.eqb 59) n = false -> decode_name_cycle n = Ok n).
  { intros n X. unfold decode_name_cycle. replace (filter (Z.eqb 59) n) with (@nil Z); [reflexivity|].
    clear - X. induction n as [|a n IH]; [reflexivity|]. cbn [existsb] in X. apply orb_false_iff in X as [X1 X2].
    cbn [filter]. rewrite X1. auto. }
  split; [|split; [exact EV|split]].
  - unfold keys_name. cbn [fo f_dir d_keys d_set_keys]. rewrite map_map. clear - ST KN.
    induction ST as [|p k ps keys H _ IH]; [reflexivity|]. cbn [map]. rewrite IH, <- (KN _ _ H). f_equal.
    unfold key_listed, fix_class. destruct (beqb (k_class (key_seen k)) _); reflexivity.
  - intros p LT SC'. destruct (latest_key _ _ _ _ KN _ ST (IN NP) LT) as (k0 & r & k & EF & BK & HK).
    assert (WP : tprog_ok p).
    { unfold latest in LT. apply find_some in LT as [LT _]. apply in_rev in LT. rewrite Forall_forall in W. auto. }
    destruct (read_tree path recs (f_sinfos fo) D p k P SG ltac:(lia)) as (t & T1 & T2); [|exact WP|exact HK|].
    { intros s C. now apply src_sis_for. }
    exists t. split; [|exact T2]. unfold get_tree, get_object. change (freader fo) with (Ok D). cbn [rbind]. rewrite (DC _ SC'). cbn [rbind].
    change (d_keys (f_dir fo)) with (map key_listed keys). rewrite filter_listed, EF. cbn [map]. rewrite best_listed, BK, T1. reflexivity.
  - intros n SC' LT. unfold get_tree, get_object. change (freader fo) with (Ok D). cbn [rbind]. rewrite (DC _ SC'). cbn [rbind].
    change (d_keys (f_dir fo)) with (map key_listed keys). rewrite filter_listed. replace (filter _ keys) with (@nil key); [reflexivity|].
    clear - ST KN LT. assert (X : Forall (fun p => beqb (tp_name p) n = false) ps).
    { apply Forall_forall. intros p Hp. apply (find_none _ _ LT). now apply -> in_rev. }
    clear LT. induction ST as [|p k ps keys H _ IH]; [reflexivity|]. inversion X; subst. cbn [filter].
    rewrite (KN _ _ H), H2. now apply IH.
Qed.
End DB.
