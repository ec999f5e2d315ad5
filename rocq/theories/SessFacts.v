(** From the state of a session to the vocabulary of the specification. *)
From Verif Require Import Base Bytes Utf8 RBuf WBuf Codec Values Key Header Obj Streamer RObj TreeObj File FileLay FileOps FileMono
  FileClose FileOpen FileFinal Names Column ColRead ColOps TreeOps ColBack ColType TreeFinal TreeWrite TreeSession StreamerDb
  Spec CodecFacts SpecTree.

(** ** Types, names and sizes *)
Lemma column_type_ok t : column_type t -> col_ty t.
Proof.
  destruct t as [p| |t|n t]; cbn; auto.
  - destruct t; auto. intros [H1 H2]. split; [lia|exact H2].
Qed.

Lemma string_size_ok s : zlen s < 2 ^ 31 -> string_size s = tstring_sizeof s.
Proof.
  intros H. unfold string_size, tstring_sizeof. pose proof (zlen_nonneg s). rewrite to_i32_id by (red; lia).
  destruct (Z.ltb_spec (zlen s) 255); destruct (Z.ltb_spec 254 (zlen s)); lia.
Qed.

Lemma names_fit a b c : text a -> text b -> text c -> zlen c <= 20 -> zlen a + zlen b <= 32000 -> names_ok a b c.
Proof.
  intros A B C L H. apply text_str_ok in A, B, C. pose proof (tstring_bound a A). pose proof (tstring_bound b B).
  pose proof (tstring_bound c C). split; [exact A|]. split; [exact B|]. split; [exact C|].
  unfold key_len_for. destruct (beqb c (bs "TBasket")); lia.
Qed.

Lemma text_bs s : str_ok (bs s) -> text (bs s).
Proof. apply text_str_ok. Qed.

Lemma text_nil : text [].
Proof. apply text_str_ok. split; reflexivity. Qed.

Lemma column_cspec tn c : text tn -> column_ok tn c -> cspec_ok tn (mkCS (c_name c) (c_type c) (map Some (c_values c))).
Proof.
  intros T (H1 & H2 & H3 & H4). split; [now apply column_type_ok|]. split.
  - apply names_fit; auto; [apply text_str_ok; split; reflexivity|discriminate].
  - cbn [cs_it cs_ty]. apply Forall_map. eapply Forall_impl; [|exact H4]. intros v Hv v' E. injection E as <-. now apply has_type_wt.
Qed.

Lemma cols_of_calls t : cols_of (tp_ops (calls t)) = map (fun c => mkCS (c_name c) (c_type c) (map Some (c_values c))) (columns (tb_setup t)).
Proof. unfold calls. cbn [tp_ops]. induction (tb_setup t) as [|[c|] r IH]; cbn [map cols_of columns]; [reflexivity| |exact IH]. now rewrite IH. Qed.

Lemma cbs_of_calls t : cbs_of (tp_ops (calls t)) = callbacks (tb_setup t).
Proof. unfold calls. cbn [tp_ops]. induction (tb_setup t) as [|[c|] r IH]; cbn [map cbs_of callbacks]; [reflexivity|exact IH|]. now rewrite IH. Qed.

Lemma table_tprog t : table_ok t -> tprog_ok (calls t).
Proof.
  intros (H1 & H2 & H3). split.
  - apply names_fit; auto; [apply text_nil|apply text_str_ok; split; reflexivity|discriminate|]. rewrite (@zlen_nil Z). cbn [calls tp_name]. lia.
  - rewrite cols_of_calls. apply Forall_map. eapply Forall_impl; [|exact H3]. intros c. now apply column_cspec.
Qed.

Lemma user_path_ok p : user_path p -> path_ok p /\ (short_path p <-> nbname p <= 1000).
Proof.
  intros [H1 H2]. apply text_str_ok in H1. unfold path_ok, nbname, short_path. rewrite path_keylen_eq. change (tstring_sizeof []) with 1.
  pose proof (tstring_bound p H1) as TB. pose proof (string_size_ok p (proj1 H1)) as SS. unfold string_size in SS.
  split; [split; [exact H1|]; lia|]. destruct (Z.ltb_spec (zlen p) 255); lia.
Qed.

Lemma directory_at_ok p : path_ok p -> directory_at p = 100 + nbname p.
Proof. intros [[H _] _]. unfold directory_at, nbname. rewrite path_keylen_eq, string_size_ok by exact H. change (tstring_sizeof []) with 1. lia. Qed.

Lemma no_bracket_ok s : no_bracket s -> no_brackets s.
Proof.
  intros [H1 H2]. unfold no_brackets. apply forallb_forall. intros c Hc. unfold is_bracket.
  destruct (Z.eqb_spec c 91); [subst; contradiction|]. destruct (Z.eqb_spec c 93); [subst; contradiction|]. reflexivity.
Qed.

Lemma concat_len {A} n (g : A -> bytes) l : Forall (fun a => zlen (g a) = n) l -> zlen (flat_map g l) = n * zlen l.
Proof.
  induction 1 as [|a l H _ IH]; cbn [flat_map]; [rewrite (@zlen_nil Z); rewrite (@zlen_nil A); lia|]. rewrite zlen_app, zlen_cons, H, IH. lia.
Qed.

Lemma vector_fits_ok t v : column_type t -> has_type t v -> (vector_fits t v <-> ent_small t v).
Proof.
  intros C W. unfold ent_small. destruct t as [| |t|]; try reflexivity. destruct t as [p| | |]; try contradiction.
  inversion W as [| |t0 l L Fl|]; subst. cbn [vector_fits].
  change (enc (TVec (TPrim p)) (VList l)) with (be 4 (zlen l) ++ flat_map (enc (TPrim p)) l). rewrite zlen_app.
  assert (E : zlen (flat_map (enc (TPrim p)) l) = Z.of_nat (scalar_bytes p) * zlen l).
  { apply concat_len. eapply Forall_impl; [|exact Fl]. intros a Ha. inversion Ha; subst. cbn [enc].
    now rewrite zlen_be. }
  rewrite E, zlen_be. replace (Z.of_nat 4 + Z.of_nat (scalar_bytes p) * zlen l + 2) with (6 + Z.of_nat (scalar_bytes p) * zlen l) by lia.
  reflexivity.
Qed.

Lemma ereads t vs : column_type t -> Forall (has_type t) vs -> Forall (fun v => wt t v /\ zlen (ent t v) < 2 ^ 31) vs ->
  (res_map (eread t) vs = Ok vs <-> Forall (vector_fits t) vs).
Proof.
  intros C W B. rewrite Forall_forall in *. split; intros H.
  - apply res_map_same in H. rewrite Forall_forall in *. intros v I. apply vector_fits_ok; auto.
    destruct (B v I). assert (D : ent_small t v \/ ~ ent_small t v) by (unfold ent_small; destruct t; auto; lia).
    destruct D as [|D]; [assumption|]. exfalso. apply (eread_wrong t v); auto. now apply column_type_ok.
  - apply res_map_all. rewrite Forall_forall. intros v I. destruct (B v I). apply eread_ok; auto. apply vector_fits_ok; auto.
Qed.

Lemma passes_longest cs m : passes (map (fun c => mkCS (c_name c) (c_type c) (map Some (c_values c))) cs) m -> m = longest cs.
Proof.
  intros [H1 H2]. unfold longest.
  assert (A : forall k, all_ended k (map (fun c => mkCS (c_name c) (c_type c) (map Some (c_values c))) cs) = true
              <-> Forall (fun n => (n < k)%nat) (map (fun c => length (c_values c)) cs)).
  { intros k. unfold all_ended. rewrite forallb_forall, Forall_forall. split.
    - intros H n Hn. apply in_map_iff in Hn as (c & <- & Hc).
      specialize (H _ (in_map _ _ _ Hc)). cbn [cs_it] in H. rewrite ended_plain in H. now apply Nat.ltb_lt in H.
    - intros H s Hs. apply in_map_iff in Hs as (c & <- & Hc). cbn [cs_it]. rewrite ended_plain. apply Nat.ltb_lt.
      apply H. apply in_map_iff. eauto. }
  apply A in H1. set (l := map (fun c => length (c_values c)) cs) in *.
  assert (U : (list_max l <= m)%nat).
  { apply list_max_le. eapply Forall_impl; [|exact H1]. intros n Hn. cbn beta in Hn. lia. }
  destruct (Nat.eq_dec m (list_max l)) as [|N]; [assumption|]. exfalso.
  specialize (H2 m ltac:(lia)). assert (X : all_ended m (map (fun c => mkCS (c_name c) (c_type c) (map Some (c_values c))) cs) = true); [|congruence].
  apply A. fold l. assert (L : (list_max l <= list_max l)%nat) by lia. apply list_max_le in L.
  eapply Forall_impl; [|exact L]. intros n Hn. cbn beta in Hn. lia.
Qed.

Lemma longest_ge cs c : In c cs -> (length (c_values c) <= longest cs)%nat.
Proof.
  intros H. unfold longest. assert (L : (list_max (map (fun c => length (c_values c)) cs) <= list_max (map (fun c => length (c_values c)) cs))%nat) by lia.
  apply list_max_le in L. rewrite Forall_forall in L. apply L. apply in_map_iff. eauto.
Qed.

Lemma Forall2_map_l {A B C} (Q : B -> C -> Prop) (g : A -> B) l m : Forall2 Q (map g l) m -> Forall2 (fun a c => Q (g a) c) l m.
Proof. revert m. induction l as [|a l IH]; intros m H; inversion H; subst; constructor; auto. Qed.

Lemma Forall2_in {A B} (Q Q' : A -> B -> Prop) l m : (forall a b, In a l -> Q a b -> Q' a b) -> Forall2 Q l m -> Forall2 Q' l m.
Proof.
  intros H F. induction F as [|a b l m X _ IH]; constructor; [apply H; [now left|exact X]|].
  apply IH. intros a' b' I. apply H. now right.
Qed.

Lemma dec_decimal n : decimal n (dec (Z.of_nat n)).
Proof.
  destruct (dec_ok (Z.of_nat n) ltac:(lia)) as (U & F & d & r & E & Z). split; [rewrite E; discriminate|]. split; [|split; [exact U|]].
  - rewrite forallb_forall in F. apply Forall_forall. intros c Hc. specialize (F c Hc). unfold is_digit in F. apply andb_prop in F as [F1 F2].
    apply Z.leb_le in F1, F2. lia.
  - intros Hn. rewrite E. cbn [hd]. apply Z. lia.
Qed.
Lemma cpp_named_ok t : column_type t -> cpp_named t (col_type_name t).
Proof.
  destruct t as [p| |t|n t]; cbn [column_type col_type_name]; try constructor; destruct t; try contradiction; intros _; constructor. apply dec_decimal.
Qed.

(** What [tree_reads] says about plain columns. *)
Lemma tree_reads_cols f p r : Forall (fun s => column_type (cs_ty s)) (cols_of (tp_ops p)) ->
  tree_reads (f_disk f) (f_sinfos f) p r ->
  n_name (t_named r) = tp_name p /\ exists m, passes (cols_of (tp_ops p)) m /\ t_entries r = Z.of_nat m /\
    Forall2 (fun s b => shows_column f (Column (cs_name s) (cs_ty s) (taken (S m) (cs_it s))) b) (cols_of (tp_ops p)) (t_branches r).
Proof.
  intros W (N & m & P & E & F). split; [exact N|]. exists m. split; [exact P|]. split; [exact E|].
  rewrite Forall_forall in W.
  eapply Forall2_in; [|exact F]. intros s b I (B1 & B2 & B3 & B4 & BB & B5 & BT & B6). specialize (W s I).
  clear F. destruct s as [sn st it]. cbn [cs_name cs_ty cs_it] in *. set (vs := taken (S m) it) in *. clearbody vs.
  assert (C4 : Forall (has_type st) vs) by (eapply Forall_impl; [|exact BB]; intros v [Hv _]; now apply wt_has_type).
  split; [exact B1|]. split; [|split; [exact B3|split; [|split; [|split]]]].
  - destruct b as [? ? ? subs ? ?]. cbn [branches_r] in B2. cbn [br_subs]. destruct subs; [reflexivity|discriminate].
  - intros R. unfold values_of. cbn [c_type c_values]. rewrite B4 by now apply no_bracket_ok. split; [now apply ereads|].
    intros e. apply res_map_err. intros v. apply eread_err.
  - intros R t' Ht. apply B5; [now apply no_bracket_ok|exact Ht].
  - intros R. destruct BT as (BT & _). eexists. split; [rewrite BT; apply named_type_plain; [now apply column_type_ok|now apply no_bracket_ok]|now apply cpp_named_ok].
  - destruct B6 as (parts & P1 & P2 & P3 & P4 & P5). exists parts. split; [exact P1|]. split; [exact P2|]. split; [exact P3|]. split; [exact P4|].
    intros [R1 R2]. specialize (P5 (no_bracket_ok _ R1)).
    assert (G : forall l (sl : list (Z * Z)), (forall p, In p l -> In p parts) ->
      Forall2 (fun sl l' => as_iter (f_disk f) (f_sinfos f) st (col_only (fst sl) (snd sl) b) = res_map (eread st) l') sl l ->
      Forall2 (fun sl l' => values_of f st (only_basket (fst sl) (snd sl) b) = Ok l') sl l).
    { intros l sl HI F2. induction F2 as [|x q sl l X F2 IH]; constructor; [|apply IH; intros q' Hq; apply HI; now right].
      change (only_basket (fst x) (snd x) b) with (col_only (fst x) (snd x) b). unfold values_of. rewrite X.
      assert (IN : forall v, In v q -> In v (vs)).
      { intros v Hv. rewrite <- P1. apply in_concat. exists q. split; [apply HI; now left|exact Hv]. }
      rewrite Forall_forall in C4, BB, R2. apply ereads; [exact W| | |]; apply Forall_forall; auto. }
    apply (G parts _); auto.
Qed.

Lemma tree_reads_shows f t r : table_ok t -> tree_reads (f_disk f) (f_sinfos f) (calls t) r ->
  shows_table f t r.
Proof.
  intros (_ & _ & W) H. apply tree_reads_cols in H as (N & m & P & E & F).
  - rewrite cols_of_calls in P, F. apply passes_longest in P. subst m.
    split; [exact N|]. split; [exact E|]. apply Forall2_map_l in F.
    eapply Forall2_in; [|exact F]. intros c b I X. cbn [cs_name cs_ty cs_it] in X.
    replace (taken (S (longest (columns (tb_setup t)))) (map Some (c_values c))) with (c_values c) in X; [now destruct c|].
    rewrite taken_plain. symmetry. apply firstn_all2. pose proof (longest_ge _ _ I). lia.
  - rewrite cols_of_calls. apply Forall_map. eapply Forall_impl; [|exact W]. intros c (C & _). exact C.
Qed.

(** ** Reading a file in which the records of a session are in place *)
Lemma not_in_existsb c n : ~ In c n -> existsb (Z.eqb c) n = false.
Proof.
  intros H. apply Bool.not_true_is_false. intros E. apply existsb_exists in E as (x & Hx & E). apply Z.eqb_eq in E. now subst.
Qed.

Section DB.
Variable db : bytes -> Z -> option sinfo.

Lemma find_after {A} (p : A -> bool) l a r : p a = true -> (forall x, In x l -> p x = false) -> find p (l ++ a :: r) = Some a.
Proof.
  intros Ha H. induction l as [|x l IH]; cbn [app find]; [now rewrite Ha|].
  rewrite (H x (or_introl eq_refl)). apply IH. intros y Hy. apply H. now right.
Qed.

Lemma records_read path ts keys recs fo D :
  path_ok path -> Forall table_ok ts -> zlen D < 2 ^ 63 -> seg D (E0 path) (concat recs) ->
  Forall2 (fun p k => stored path recs (tp_name p) (cols_of (tp_ops p)) k) (map calls ts) keys -> incr keys ->
  f_io fo = IORead D -> d_keys (f_dir fo) = map key_listed keys ->
  (forall s, col_ty (cs_ty s) -> sis_for (f_sinfos fo) (cs_ty s)) ->
  shows_tables fo ts.
Proof.
  clear db. intros P W HD SG ST IN IO DK SI.
  set (ps := map calls ts) in *.
  assert (FD : f_disk fo = D) by (unfold f_disk; now rewrite IO).
  assert (FR : freader fo = Ok D) by (unfold freader; now rewrite IO).
  assert (KN : forall p k, stored path recs (tp_name p) (cols_of (tp_ops p)) k -> k_name k = tp_name p) by (intros p k X; now apply stored_name in X).
  assert (DC : forall n, existsb (Z.eqb 59) n = false -> decode_name_cycle n = Ok n).
  { intros n X. unfold decode_name_cycle. replace (filter (Z.eqb 59) n) with (@nil Z); [reflexivity|].
    clear - X. induction n as [|a n IH]; [reflexivity|]. cbn [existsb] in X. apply orb_false_iff in X as [X1 X2].
    cbn [filter]. rewrite X1. auto. }
  split; [|split].
  - unfold keys_name. rewrite DK, map_map. replace (map tb_name ts) with (map tp_name ps) by (unfold ps; rewrite map_map; reflexivity). clear - ST KN.
    induction ST as [|p k ps keys H _ IH]; [reflexivity|]. cbn [map]. rewrite IH, <- (KN _ _ H). f_equal.
    unfold key_listed, fix_class. destruct (beqb (k_class (key_seen k)) _); reflexivity.
  - intros pre t post E L NS.
    assert (LT : latest ps (tb_name t) = Some (calls t)).
    { unfold latest, ps. rewrite E, map_app. cbn [map]. rewrite rev_app_distr. cbn [rev]. rewrite <- !app_assoc. apply find_after.
      - apply beqb_eq. reflexivity.
      - intros x Hx. apply in_rev, in_map_iff in Hx as (t' & <- & I). cbn [calls tp_name]. apply Bool.not_true_is_false. intros B. apply beqb_eq in B.
        now apply (L t'). }
    destruct (latest_key _ _ _ _ KN _ ST IN LT) as (k0 & r & k & EF & BK & HK).
    assert (WT : table_ok t). { rewrite Forall_forall in W. apply W. rewrite E. apply in_or_app. right. now left. }
    destruct (read_tree path recs (f_sinfos fo) D (calls t) k P SG HD SI (table_tprog _ WT) HK) as (r0 & T1 & T2).
    exists r0. split.
    + unfold get_tree, get_object. rewrite FR. cbn [rbind]. rewrite (DC _ (not_in_existsb _ _ NS)). cbn [rbind].
      rewrite DK, filter_listed, EF. cbn [map]. rewrite best_listed, BK, T1. reflexivity.
    + apply tree_reads_shows; [exact WT|]. now rewrite FD.
  - intros n NS NI. unfold get_tree, get_object. rewrite FR. cbn [rbind]. rewrite (DC _ (not_in_existsb _ _ NS)). cbn [rbind].
    rewrite DK, filter_listed. replace (filter _ keys) with (@nil key); [reflexivity|].
    assert (X : Forall (fun p => beqb (tp_name p) n = false) ps).
    { apply Forall_forall. intros p Hp. apply in_map_iff in Hp as (t & <- & I). apply Bool.not_true_is_false. intros B. apply beqb_eq in B.
      apply NI. rewrite <- B. apply in_map_iff. exists t. split; [reflexivity|exact I]. }
    clear - ST KN X. clearbody ps. induction ST as [|p k ps keys H _ IH]; [reflexivity|]. inversion X as [|? ? X1 X2]; subst. cbn [filter].
    rewrite (KN _ _ H), X1. now apply IH.
Qed.

(** ** The state at the end of a session *)
Record closed_session (path : bytes) (ps : list tprog) (es : list (list (nat * event)))
    (keys : list key) (sis : list sinfo) (recs : list bytes) (log : list (Z * bytes)) (sis' : list sinfo) (sbuf : bytes) (f : file) : Prop := mkCl {
  cl_sess : sess db path ps es keys sis recs (lay_file path keys sis log (E0 path + rsize recs));
  cl_log : lay_log path recs log;
  cl_good : Forall key_good keys;
  cl_nk : zlen keys < 2 ^ 31;
  cl_end : fh_end (hdr1 path keys sbuf (E0 path + rsize recs)) <= kStartBigFile;
  cl_sis : Forall sinfo_ok sis';
  cl_nsis : zlen sis' < 2 ^ 31;
  cl_src : Forall (src db) sis';
  cl_wrun : wrun si_keylen (sinfos_marshal sis') = Ok sbuf;
  cl_sbuf : 3 <= zlen sbuf;
  cl_file : f = mkFile (IOWrite (log ++ close_log path keys sbuf (E0 path + rsize recs))) (hdr1 path keys sbuf (E0 path + rsize recs))
     (dir1 path keys (E0 path + rsize recs)) [mkSeg (fh_end (hdr1 path keys sbuf (E0 path + rsize recs))) kStartBigFile] sis' path;
  cl_few : few (map tp_name ps) }.

Lemma sess_closed path ps es keys sis recs f1 f2 : db_ok db -> path_ok path -> few (map tp_name ps) ->
  sess db path ps es keys sis recs f1 -> close db f1 = (f2, Ok tt) -> zlen (f_disk f2) <= kStartBigFile ->
  exists log sis' sbuf, closed_session path ps es keys sis recs log sis' sbuf f2.
Proof.
  intros O P NP S H2 HD.
  assert (D1 : zlen (f_disk f1) <= kStartBigFile).
  { eapply Z.le_trans; [|exact HD]. eapply mono_disk; [|exact H2]. mono. }
  pose proof S as S0. destruct S as [L ST CY IN UN SR EV SL].
  pose proof (lay_bound path keys sis recs f1 P L D1) as LB. destruct L as (log & -> & LL).
  pose proof (E0_pos path P) as HE0. pose proof (rsize_nonneg recs) as HR.
  assert (G : Forall key_good keys).
  { clear - ST. induction ST as [|p k ps keys H _ IH]; constructor; [|exact IH]. now apply stored_name in H. }
  destruct (close_bwd db path keys sis log (E0 path + rsize recs) f2 P G ltac:(lia) H2 HD) as (NK & sis' & sbuf & DE & SB & HE).
  rewrite (close_fwd db path keys sis log (E0 path + rsize recs) sis' sbuf P G NK ltac:(lia) DE SB HE) in H2. apply (f_equal fst) in H2. cbn [fst] in H2. subst f2.
  destruct (deep_ext db _ _ DE) as (ext & EX & FE).
  assert (SR' : Forall (src db) sis').
  { rewrite EX. apply Forall_app. split; [exact SR|]. eapply Forall_impl; [|exact FE]. intros a. left. assumption. }
  pose proof (deep_uniq db _ _ DE UN) as UN'.
  assert (SO : Forall sinfo_ok sis') by (eapply Forall_impl; [|exact SR']; intros a; apply src_ok; exact O).
  pose proof (src_count db _ O UN' SR') as SC.
  destruct (closed_sizes path keys recs sbuf P HE) as (Z0 & Z1 & Z2 & Z3 & Z4 & _).
  exists log, sis', sbuf. constructor; auto.
  pose proof (key_len_pos _ _ _ names_ok_si) as Ls. fold si_keylen in Ls.
  assert (4 <= zlen sbuf); [|lia]. apply (sinfos_buf_len si_keylen sis' sbuf SO SC SB); [lia|].
  match type of Z2 with ?a < ?b => assert (Z5 : b = a + (si_keylen + zlen sbuf)) by (unfold skey; rewrite mk_key_nbytes; reflexivity) end.
  lia.
Qed.

Lemma session_closed path ps f es : db_ok db -> path_ok path -> Forall tprog_ok ps -> few (map tp_name ps) ->
  session db path ps = (f, Ok es) -> zlen (f_disk f) <= kStartBigFile ->
  exists keys sis recs log sis' sbuf, closed_session path ps es keys sis recs log sis' sbuf f.
Proof.
  intros O P W NP H HD. unfold session in H. rewrite (FileLay.create_ok path P) in H.
  apply fbind_inv in H as (f0 & [] & H0 & H). apply flift_inv in H0 as [-> _].
  apply fbind_inv in H as (f1 & es1 & H1 & H). apply fbind_inv in H as (f2 & [] & H2 & H). injection H as <- <-.
  assert (D1 : zlen (f_disk f1) <= kStartBigFile).
  { eapply Z.le_trans; [|exact HD]. eapply mono_disk; [|exact H2]. mono. }
  destruct (write_trees_ok db path ps P W [] [] [] [] [] _ _ _ (sess_create db path P) H1 D1)
    as (keys & sis & recs & S & _).
  cbn [app] in S. destruct (sess_closed _ _ _ _ _ _ _ _ O P NP S H2 HD) as (log & sis' & sbuf & C). exists keys, sis, recs, log, sis', sbuf. exact C.
Qed.

Lemma session_shows path ts es keys sis recs log sis' sbuf f : db_ok db -> path_ok path -> nbname path <= 1000 -> Forall table_ok ts ->
  closed_session path (map calls ts) es keys sis recs log sis' sbuf f ->
  exists fo, open_file (f_disk f) = Ok fo /\ f_disk fo = f_disk f /\ f_hdr fo = hdr1 path keys sbuf (E0 path + rsize recs) /\
    f_spans fo = [mkSeg (fh_end (hdr1 path keys sbuf (E0 path + rsize recs))) kStartBigFile] /\
    d_keys (f_dir fo) = map key_listed keys /\ shows_tables fo ts.
Proof.
  intros O P NB W [S LL G NK HE SO SC SR SB S4 -> FW0]. destruct S as [L ST CY IN UN _ EV SL].
  assert (FW : few (map tp_name (map calls ts))) by assumption.
  pose proof (opens_closed path keys recs log sbuf sis' P G NK LL HE NB SO SC SB S4) as OP.
  unfold f_disk at 1 3. cbn [f_io]. eexists. split; [exact OP|]. split; [reflexivity|]. split; [reflexivity|]. split; [reflexivity|]. split; [reflexivity|].
  destruct (closed_segs path keys recs log sbuf P LL HE) as (_ & _ & SG & _).
  destruct (disk_closed path keys recs log sbuf P LL HE) as (_ & LD).
  destruct (closed_sizes path keys recs sbuf P HE) as (Z0 & Z1 & Z2 & Z3 & Z4 & _).
  eapply records_read; [exact P|exact W| |exact SG|exact ST|exact (IN FW)|reflexivity|reflexivity|].
  - rewrite LD. lia.
  - intros s C. cbn [f_sinfos]. now apply (src_sis_for db).
Qed.

Lemma events_heard ts es : Forall2 evs_ok (map calls ts) es -> es = map heard ts.
Proof.
  clear db. revert es. induction ts as [|t ts IH]; intros es H; inversion H as [|p e ps es' (m & P & E) F]; subst; [reflexivity|].
  cbn [map]. rewrite <- (IH _ F). f_equal. unfold heard. rewrite cols_of_calls in P. apply passes_longest in P. subst m.
  rewrite cols_of_calls, cbs_of_calls. f_equal. f_equal. unfold pass_events, one_round, row_events. f_equal.
  rewrite flat_map_concat_map, map_map, <- flat_map_concat_map. reflexivity.
Qed.
End DB.
