(** Closing a file. *)
From Verif Require Export FileMono.

Section DB.
Variable db : bytes -> Z -> option sinfo.
Set Default Proof Using "Type".

(** The class descriptions a file holds once all dependencies are added. *)
Fixpoint add_deps (sis : list sinfo) (deps : list (bytes * Z)) : res (list sinfo) :=
  match deps with
  | [] => Ok sis
  | d :: r =>
      if is_core_type (fst d) || is_cxx_builtin (fst d) then add_deps sis r
      else match db (fst d) (snd d) with None => Panic | Some si => add_deps (sis_add sis si) r end
  end.
Definition deep (sis : list sinfo) : res (list sinfo) :=
  deps <-? all_deps db sis ;; add_deps sis deps.

Lemma add_sinfo_any si f : add_sinfo si f = (f_set_sinfos f (sis_add (f_sinfos f) si), Ok tt).
Proof. unfold add_sinfo, fmodify, sis_add. destruct (existsb _ _); [now destruct f|reflexivity]. Qed.

Lemma add_deps_fiter deps f :
  match add_deps (f_sinfos f) deps with
  | Ok s => fiter (add_dep db) deps f = (f_set_sinfos f s, Ok tt)
  | _ => forall f' , fiter (add_dep db) deps f <> (f', Ok tt)
  end.
Proof.
  revert f; induction deps as [|d r IH]; intros f; cbn [add_deps fiter].
  - now destruct f.
  - unfold fbind.
    assert (E : add_dep db d f = (if is_core_type (fst d) || is_cxx_builtin (fst d) then fret tt else
      match db (fst d) (snd d) with Some si => add_sinfo si | None => flift Panic end) f) by reflexivity.
    rewrite E. clear E. destruct (_ || _).
    + cbn [fret]. apply IH.
    + destruct (db _ _) as [si|].
      * rewrite add_sinfo_any. specialize (IH (f_set_sinfos f (sis_add (f_sinfos f) si))). cbn [f_sinfos f_set_sinfos] in IH.
        destruct (add_deps _ _); auto.
      * intros f' H. discriminate.
Qed.

Lemma find_deep_ok sis' f : deep (f_sinfos f) = Ok sis' -> find_deep db f = (f_set_sinfos f sis', Ok tt).
Proof.
  unfold deep, find_deep, fbind at 1, fgets. intros H. apply rbind_inv in H as (deps & H1 & H2).
  unfold fbind, flift. rewrite H1. pose proof (add_deps_fiter deps f) as HF. now rewrite H2 in HF.
Qed.
Lemma find_deep_inv f f' : find_deep db f = (f', Ok tt) ->
  exists sis', deep (f_sinfos f) = Ok sis' /\ f' = f_set_sinfos f sis'.
Proof.
  unfold deep, find_deep. intros H. apply fbind_inv in H as (f1 & s & H1 & H). apply fgets_inv in H1 as [-> ->].
  apply fbind_inv in H as (f1 & deps & H1 & H). apply flift_inv in H1 as [-> H1].
  pose proof (add_deps_fiter deps f) as HF. rewrite H1. cbn [rbind].
  destruct (add_deps _ deps); try (exfalso; now apply (HF f')).
  rewrite HF in H. injection H as <-. eauto.
Qed.

(** What the dependencies add comes from the table. *)
Definition from_db (s : sinfo) : Prop := exists n v, db n v = Some s.
Lemma sis_add_split sis si : sis_add sis si = sis \/ sis_add sis si = sis ++ [si].
Proof. unfold sis_add. destruct (existsb _ _); auto. Qed.
Lemma deep_ext sis sis' : deep sis = Ok sis' -> exists ext, sis' = sis ++ ext /\ Forall from_db ext.
Proof.
  intros H. apply rbind_inv in H as (deps & _ & H).
  revert sis H; induction deps as [|d r IH]; intros sis; cbn [add_deps].
  - intros [= <-]. exists []. now rewrite app_nil_r.
  - destruct (_ || _); [apply IH|]. destruct (db _ _) as [si|] eqn:E; [|discriminate]. intros H.
    apply IH in H as (ext & -> & F). destruct (sis_add_split sis si) as [->| ->]; [eauto|].
    exists (si :: ext). rewrite <- app_assoc. split; [reflexivity|]. constructor; [|exact F].
    now exists (fst d), (snd d).
Qed.
Definition uniq (sis : list sinfo) : Prop := NoDup (map si_name sis).
Lemma sis_add_uniq sis si : uniq sis -> uniq (sis_add sis si).
Proof.
  unfold uniq, sis_add. intros H. destruct (existsb _ _) eqn:E; [exact H|].
  rewrite map_app. cbn [map]. apply NoDup_app_intro; [exact H|repeat constructor; intros []|].
  intros x H1 [<-|[]]. apply in_map_iff in H1 as (s & E1 & H1).
  assert (existsb (fun s => beqb (si_name s) (si_name si)) sis = true); [|congruence].
  apply existsb_exists. exists s. split; [exact H1|]. now apply beqb_eq.
Qed.
Lemma deep_uniq sis sis' : deep sis = Ok sis' -> uniq sis -> uniq sis'.
Proof.
  intros H. apply rbind_inv in H as (deps & _ & H).
  revert sis H; induction deps as [|d r IH]; intros sis; cbn [add_deps].
  - now intros [= <-].
  - destruct (_ || _); [apply IH|]. destruct (db _ _) as [si|] eqn:E; [|discriminate]. intros H U.
    eapply IH; [exact H|]. now apply sis_add_uniq.
Qed.

(** ** The records written by [close] *)
Definition keys_buf (keys : list key) : bytes := be 4 (zlen keys) ++ concat (map khdr keys).
Definition seg_buf (e : Z) : bytes := wbytes (seg_marshal (mkSeg e kStartBigFile)).

Definition si_title := bs "Doubly linked list".
Definition si_kname := bs "StreamerInfo".
Definition si_keylen : Z := key_len_for si_kname si_title (bs "TList") false.

(** Key of the list of keys, written at [e]. *)
Definition kkey (path : bytes) (keys : list key) (e : Z) : key :=
  mk_key path [] (bs "TDirectory") 1 e (keys_buf keys).
(** Key of the class descriptions. *)
Definition skey (sbuf : bytes) (e : Z) : key := mk_key si_kname si_title (bs "TList") 1 e sbuf.
(** Key of the free list. *)
Definition fkey (path : bytes) (e : Z) : key :=
  mk_key path [] (bs "TFile") 1 e (seg_buf (e + (path_keylen path + 10))).

Definition dir1 (path : bytes) (keys : list key) (e : Z) : dirf :=
  d_set_saved (d_set_keys (dir0 path) keys) e (k_nbytes (kkey path keys e)).

Definition hdr1 (path : bytes) (keys : list key) (sbuf : bytes) (e : Z) : fhdr :=
  let e1 := e + k_nbytes (kkey path keys e) in
  let e2 := e1 + k_nbytes (skey sbuf e1) in
  let e3 := e2 + k_nbytes (fkey path e2) in
  mkHdr 63002 100 e3 e2 (k_nbytes (fkey path e2)) 1 (nbname path) 4 1 e1 (k_nbytes (skey sbuf e1)) (repeat 0 16).

Definition rec_writes (k : key) : list (Z * bytes) := [(k_seek k, khdr k); (k_seek k + k_keylen k, k_buffer k)].

Definition close_log (path : bytes) (keys : list key) (sbuf : bytes) (e : Z) : list (Z * bytes) :=
  let e1 := e + k_nbytes (kkey path keys e) in
  let e2 := e1 + k_nbytes (skey sbuf e1) in
  rec_writes (kkey path keys e) ++ [(100 + nbname path, dirb (dir1 path keys e))] ++
  rec_writes (skey sbuf e1) ++ rec_writes (fkey path e2) ++
  [(0, repeat 0 100); (0, hdrb (hdr1 path keys sbuf e))].

Lemma mk_key_nbytes n t c cy e b : k_nbytes (mk_key n t c cy e b) = key_len_for n t c false + zlen b.
Proof. reflexivity. Qed.

Lemma names_ok_dir path : path_ok path -> names_ok path [] (bs "TDirectory").
Proof. clear db.
  intros [H1 H2]. split; [exact H1|]. split; [exact str_ok_nil|]. split; [str_lit|].
  rewrite path_keylen_eq in H2. unfold key_len_for. change (beqb (bs "TDirectory") (bs "TBasket")) with false.
  change (tstring_sizeof (bs "TDirectory")) with 11. change (tstring_sizeof []) with 1. lia.
Qed.
Lemma names_ok_file path : path_ok path -> names_ok path [] (bs "TFile").
Proof. clear db.
  intros [H1 H2]. split; [exact H1|]. split; [exact str_ok_nil|]. split; [str_lit|].
  fold (path_keylen path). lia.
Qed.
Lemma names_ok_si : names_ok si_kname si_title (bs "TList").
Proof. split; [str_lit|]. split; [str_lit|]. split; [str_lit|]. reflexivity. Qed.

Lemma sum_keylen keys : Forall key_good keys -> sum_list (map k_keylen keys) = zlen (concat (map khdr keys)).
Proof.
  induction 1 as [|k ks (K & _ & KL) H IH]; [reflexivity|]. cbn [map concat]. rewrite zlen_app.
  destruct (khdr_ok k K) as (-> & _). rewrite <- KL. unfold sum_list in *. cbn [fold_right]. lia.
Qed.

Lemma writes_keys keys : Forall key_good keys -> writes (iterM key_marshal keys) (concat (map khdr keys)).
Proof.
  induction 1 as [|k ks (K & _) H IH]; cbn [iterM map concat].
  - apply (writes_ret tt).
  - destruct (khdr_ok k K) as (_ & _ & HW & _). eapply writes_bind; [exact HW|]. intros _. exact IH.
Qed.

Lemma key_new_k f e name title class buf objlen :
  small f e -> 0 < objlen -> zlen buf = objlen -> d_seekdir (f_dir f) = 100 ->
  e + (key_len_for name title class false + objlen) <= kStartBigFile -> 0 <= key_len_for name title class false ->
  exists k, key_new name title class objlen f = (f_end f (e + (key_len_for name title class false + objlen)), Ok k) /\
    k_set_buffer k buf = mk_key name title class 1 e buf /\ k_seek k = e /\
    k_nbytes k = k_nbytes (mk_key name title class 1 e buf) /\ k_objlen k = objlen.
Proof.
  intros S Ho Hb Hd He Hk. rewrite (key_new_small _ e) by auto. eexists.
  rewrite (Z.add_comm objlen). split; [reflexivity|].
  rewrite Hd. unfold k_set_buffer, mk_key. cbn [k_rvers k_nbytes k_objlen k_date k_keylen k_cycle k_seek k_pdir k_class k_name k_title].
  rewrite Hb. auto.
Qed.

Lemma keys_buf_len keys : zlen (keys_buf keys) = 4 + zlen (concat (map khdr keys)).
Proof. unfold keys_buf. rewrite zlen_app, zlen_be. reflexivity. Qed.

(** A header field update that leaves [small] alone. *)
Lemma save_keys_ok path keys sis log e : path_ok path -> Forall key_good keys -> zlen keys < 2 ^ 31 ->
  E0 path <= e -> e + k_nbytes (kkey path keys e) <= kStartBigFile ->
  save_keys (d_set_keys (dir0 path) keys) (lay_file path keys sis log e) =
  (lay_file path keys sis (log ++ rec_writes (kkey path keys e)) (e + k_nbytes (kkey path keys e)), Ok (dir1 path keys e)).
Proof. clear db.
  intros P G Hn E0e He. pose proof (E0_pos path P). unfold kkey in *. rewrite mk_key_nbytes in *.
  pose proof (names_ok_dir path P) as N. pose proof (key_len_pos _ _ _ N) as Hkl.
  set (kl := key_len_for path [] (bs "TDirectory") false) in *.
  pose proof (zlen_nonneg (concat (map khdr keys))) as Hc. rewrite keys_buf_len in He |- *.
  pose proof (zlen_nonneg keys) as Hz.
  assert (SM : small (lay_file path keys sis log e) e) by (apply lay_small; [exact P|unfold kStartBigFile in *; lia]).
  unfold save_keys. unfold fbind at 1, fgets at 1. rewrite (file_big_small _ e SM). cbv zeta.
  cbn [d_keys d_set_keys]. rewrite sum_keylen by exact G. rewrite Z.add_0_r.
  unfold fbind at 1, flift at 1. unfold kStartBigFile in He. rewrite add_i32_ok by (red; lia). rewrite Z.add_0_r.
  unfold fbind at 1. change (d_name (d_set_keys (dir0 path) keys)) with path.
  change (d_title (d_set_keys (dir0 path) keys)) with (@nil Z).
  destruct (key_new_k (lay_file path keys sis log e) e path [] (bs "TDirectory") (keys_buf keys)
              (4 + zlen (concat (map khdr keys)))) as (k & HK & K1 & K2 & K3 & K4);
    [exact SM|lia|apply keys_buf_len|reflexivity|fold kl; unfold kStartBigFile; lia|fold kl; lia|].
  rewrite HK. fold kl. rewrite lay_end.
  unfold fbind at 1, flift at 1.
  rewrite (writes_wrun _ (keys_buf keys)).
  2: { unfold keys_buf. rewrite to_i32_id by (red; lia). eapply writes_bind; [apply writes_int|]. intros _.
       now apply writes_keys. }
  unfold fbind. rewrite K1. erewrite key_write_ok; [|reflexivity|].
  2: { apply mk_key_good; [exact N|lia|rewrite keys_buf_len; fold kl; unfold kStartBigFile; lia|red; lia]. }
  unfold fret. rewrite K2, K3. reflexivity.
Qed.

Lemma write_dir_ok path keys e f log : path_ok path -> is_i32 e -> is_i32 (k_nbytes (kkey path keys e)) ->
  f_io f = IOWrite log ->
  write_dir (dir1 path keys e) f =
  (f_set_io f (IOWrite (log ++ [(100 + nbname path, dirb (dir1 path keys e))])), Ok (dir1 path keys e)).
Proof.
  intros P H1 H2 L. unfold write_dir. change (d_set_mtime (dir1 path keys e) now_ts) with (dir1 path keys e). cbv zeta.
  unfold fbind at 1, flift at 1.
  destruct (dirb_ok (dir1 path keys e)) as (_ & HW & _); [now apply dir0_ok|]. rewrite HW.
  unfold fbind, fwrite. rewrite L. reflexivity.
Qed.

Lemma zlen_seg_buf e : is_i32 e -> zlen (seg_buf e) = 10 /\ writes (seg_marshal (mkSeg e kStartBigFile)) (seg_buf e) /\
  reads seg_unmarshal (seg_buf e) (mkSeg e kStartBigFile).
Proof. clear db.
  intros H. apply (rt_wbytes 10). apply (seg_rt (mkSeg e kStartBigFile)).
  unfold seg_ok. cbn [s_first s_last]. unfold kStartBigFile. rewrite Z.ltb_irrefl. split; [exact H|red; lia].
Qed.


(** The state between the stages of [close]. *)
Definition fc1 path keys sis log e e1 : file :=
  mkFile (IOWrite log) (h_set_end (hdr0 path) e1) (dir1 path keys e) [mkSeg e1 kStartBigFile] sis path.
Definition fc2 path keys sis log e e1 ns e2 : file :=
  mkFile (IOWrite log) (mkHdr 63002 100 e2 0 0 1 (nbname path) 4 1 e1 ns (repeat 0 16))
    (dir1 path keys e) [mkSeg e2 kStartBigFile] sis path.
Definition fc3 path keys sis log e e1 ns e2 nf e3 : file :=
  mkFile (IOWrite log) (mkHdr 63002 100 e3 e2 nf 1 (nbname path) 4 1 e1 ns (repeat 0 16))
    (dir1 path keys e) [mkSeg e3 kStartBigFile] sis path.

Lemma small_fc1 path keys sis log e e1 : 100 <= e1 <= kStartBigFile -> small (fc1 path keys sis log e e1) e1.
Proof. clear db. intros H. unfold small, fc1. cbn. unfold kStartBigFile in *. repeat split; try lia. all: eauto. Qed.
Lemma small_fc2 path keys sis log e e1 ns e2 : 100 <= e2 <= kStartBigFile -> small (fc2 path keys sis log e e1 ns e2) e2.
Proof. clear db. intros H. unfold small, fc2. cbn. unfold kStartBigFile in *. repeat split; try lia. all: eauto. Qed.

Lemma key_new_0 f e1 : small f e1 ->
  exists k0, key_new si_kname si_title (bs "TList") 0 f = (f, Ok k0) /\ k_keylen k0 = si_keylen.
Proof. clear db.
  intros S2. unfold key_new. unfold fbind at 1, fgets at 1. rewrite (f_keylen_small _ e1) by exact S2. fold si_keylen.
  unfold fbind at 1, flift at 1.
  rewrite add_i32_ok by (pose proof names_ok_si as (_ & _ & _ & HL); fold si_keylen in HL;
    pose proof (key_len_pos _ _ _ names_ok_si) as HP; fold si_keylen in HP; red; lia).
  unfold fbind, fgets, fret. change (0 <? 0) with false. cbv iota. eexists. split; reflexivity.
Qed.

Lemma write_sinfos_ok path keys sis log e e1 sis' sbuf :
  100 <= e1 -> deep sis = Ok sis' -> wrun si_keylen (sinfos_marshal sis') = Ok sbuf ->
  e1 + k_nbytes (skey sbuf e1) <= kStartBigFile ->
  write_sinfos db (fc1 path keys sis log e e1) =
  (fc2 path keys sis' (log ++ rec_writes (skey sbuf e1)) e e1 (k_nbytes (skey sbuf e1)) (e1 + k_nbytes (skey sbuf e1)), Ok tt).
Proof.
  intros H1 HD HS He.
  assert (Ns : k_nbytes (skey sbuf e1) = si_keylen + zlen sbuf) by reflexivity.
  pose proof (zlen_nonneg sbuf) as Zs.
  pose proof (key_len_pos _ _ _ names_ok_si) as Ls. fold si_keylen in Ls.
  unfold kStartBigFile in He.
  unfold write_sinfos. unfold fbind at 1.
  rewrite (find_deep_ok sis') by exact HD.
  unfold fbind at 1, fgets at 1. unfold fbind at 1, fgets at 1. cbn [f_sinfos f_set_sinfos].
  change (fh_seekinfo (f_hdr (f_set_sinfos (fc1 path keys sis log e e1) sis'))) with 0.
  change (negb (0 =? 0)) with false. cbv iota.
  change (f_set_sinfos (fc1 path keys sis log e e1) sis') with (fc1 path keys sis' log e e1).
  set (f2 := fc1 path keys sis' log e e1).
  assert (S2 : small f2 e1) by (apply small_fc1; unfold kStartBigFile; lia).
  cbv zeta. fold si_kname si_title.
  destruct (key_new_0 f2 e1 S2) as (k0 & EK & EK0). unfold fbind at 1. rewrite EK, EK0.
  unfold fbind at 1, flift at 1. rewrite HS.
  unfold fbind at 1. unfold key_from_buffer. unfold fbind at 1, fgets at 1. rewrite (f_keylen_small _ e1) by exact S2.
  fold si_keylen. rewrite (key_from_small _ e1); [|exact S2|lia|unfold kStartBigFile; lia].
  change (d_seekdir (f_dir f2)) with 100. unfold si_keylen. fold (mk_key si_kname si_title (bs "TList") 1 e1 sbuf). fold (skey sbuf e1).
  fold si_keylen. rewrite <- Ns.
  unfold fbind at 1, fmodify at 1. erewrite key_write_ok; [|reflexivity|].
  2: { apply mk_key_good; [exact names_ok_si|lia|fold si_keylen; unfold kStartBigFile; lia|red; lia]. }
  reflexivity.
Qed.

Lemma write_free_ok path keys sis log e e1 ns e2 :
  path_ok path -> 100 <= e2 -> e2 + (path_keylen path + 10) <= kStartBigFile ->
  k_nbytes (fkey path e2) = path_keylen path + 10 /\
  write_free (fc2 path keys sis log e e1 ns e2) =
  (fc3 path keys sis (log ++ rec_writes (fkey path e2)) e e1 ns e2 (k_nbytes (fkey path e2)) (e2 + k_nbytes (fkey path e2)), Ok tt).
Proof. clear db.
  intros P H2 He.
  pose proof (key_len_pos _ _ _ (names_ok_file path P)) as Lf. fold (path_keylen path) in Lf.
  unfold kStartBigFile in He.
  assert (B3 : is_i32 (e2 + (path_keylen path + 10))) by (red; lia).
  destruct (zlen_seg_buf _ B3) as (ZF & WF & _).
  assert (Nf : k_nbytes (fkey path e2) = path_keylen path + 10) by (rewrite <- ZF; reflexivity).
  split; [exact Nf|].
  set (f3 := fc2 path keys sis log e e1 ns e2).
  assert (S3 : small f3 e2) by (apply small_fc2; unfold kStartBigFile; lia).
  unfold write_free. unfold fbind at 1, fgets at 1. change (fh_seekfree (f_hdr f3)) with 0.
  change (negb (0 =? 0)) with false. cbv iota.
  unfold fbind at 1, fgets at 1. change (f_spans f3) with [mkSeg e2 kStartBigFile].
  unfold fbind at 1, fgets at 1. unfold fbind at 1, flift at 1.
  change (sum_list (map seg_size [mkSeg e2 kStartBigFile])) with 10.
  change (add_i32 10 0) with (@Ok Z 10).
  change (d_name (f_dir f3)) with path. change (d_title (f_dir f3)) with (@nil Z).
  unfold fbind at 1.
  destruct (key_new_k f3 e2 path [] (bs "TFile") (seg_buf (e2 + (path_keylen path + 10))) 10) as (k & HK & K1 & K2 & K3 & K4);
    [exact S3|lia|exact ZF|reflexivity|fold (path_keylen path); unfold kStartBigFile; lia|fold (path_keylen path); lia|].
  fold (fkey path e2) in K1, K3.
  rewrite HK. fold (path_keylen path). rewrite K2. destruct (Z.eqb_spec e2 0); [lia|].
  unfold fbind at 1, fgets at 1. change (f_spans (f_end f3 (e2 + (path_keylen path + 10)))) with [mkSeg (e2 + (path_keylen path + 10)) kStartBigFile].
  unfold fbind at 1, flift at 1.
  rewrite (writes_wrun _ (seg_buf (e2 + (path_keylen path + 10)))).
  2: { cbn [iterM]. rewrite <- (app_nil_r (seg_buf _)). eapply writes_bind; [exact WF|]. intros _. apply (writes_ret tt). }
  rewrite ZF, K4. change (negb (10 =? 10)) with false. cbv iota.
  unfold fbind at 1, fmodify at 1. rewrite K1, K3. erewrite key_write_ok; [|reflexivity|].
  2: { apply mk_key_good; [now apply names_ok_file|lia|rewrite ZF; fold (path_keylen path); unfold kStartBigFile; lia|red; lia]. }
  rewrite <- Nf. reflexivity.
Qed.

Lemma hdr1_ok path keys sbuf e : path_ok path -> E0 path <= e -> fh_end (hdr1 path keys sbuf e) <= kStartBigFile ->
  fhdr_ok (hdr1 path keys sbuf e) /\ fhdr_big (hdr1 path keys sbuf e) = false.
Proof. clear db.
  intros P E0e He. pose proof (E0_pos path P) as HE0. unfold hdr1 in *. cbv zeta in *. cbn [fh_end] in He.
  set (kk := kkey path keys e) in *. set (e1 := e + k_nbytes kk) in *.
  set (ks := skey sbuf e1) in *. set (e2 := e1 + k_nbytes ks) in *.
  set (kf := fkey path e2) in *. set (e3 := e2 + k_nbytes kf) in *.
  pose proof (zlen_nonneg sbuf) as Zs. pose proof (zlen_nonneg (keys_buf keys)) as Zk.
  pose proof (key_len_pos _ _ _ names_ok_si) as Ls. fold si_keylen in Ls.
  pose proof (key_len_pos _ _ _ (names_ok_dir path P)) as Lk.
  pose proof (key_len_pos _ _ _ (names_ok_file path P)) as Lf. fold (path_keylen path) in Lf.
  assert (Nk : k_nbytes kk = key_len_for path [] (bs "TDirectory") false + zlen (keys_buf keys)) by reflexivity.
  assert (Ns : k_nbytes ks = si_keylen + zlen sbuf) by reflexivity.
  assert (Nf : k_nbytes kf = path_keylen path + zlen (seg_buf (e2 + (path_keylen path + 10)))) by reflexivity.
  pose proof (zlen_nonneg (seg_buf (e2 + (path_keylen path + 10)))) as Zf.
  unfold kStartBigFile in He.
  match goal with |- fhdr_ok ?h /\ _ => assert (EH : fhdr_big h = false) end.
  { unfold fhdr_big, kStartBigFile. cbn [fh_end fh_seekfree fh_seekinfo]. lia. }
  split; [|exact EH]. unfold fhdr_ok. rewrite EH. destruct P as [_ P2].
  cbn [fh_version fh_begin fh_end fh_seekfree
         fh_nbfree fh_nfree fh_nbname fh_units fh_comp fh_seekinfo fh_nbinfo fh_uuid].
  unfold E0 in HE0, E0e.
  repeat match goal with |- _ /\ _ => split end; try (red; lia); try rt_side; now rewrite zlen_repeat.
Qed.

Lemma close_fwd path keys sis log e sis' sbuf :
  path_ok path -> Forall key_good keys -> zlen keys < 2 ^ 31 -> E0 path <= e ->
  deep sis = Ok sis' -> wrun si_keylen (sinfos_marshal sis') = Ok sbuf ->
  fh_end (hdr1 path keys sbuf e) <= kStartBigFile ->
  close db (lay_file path keys sis log e) =
  (mkFile (IOWrite (log ++ close_log path keys sbuf e)) (hdr1 path keys sbuf e) (dir1 path keys e)
     [mkSeg (fh_end (hdr1 path keys sbuf e)) kStartBigFile] sis' path, Ok tt).
Proof.
  intros P G Hn E0e HD HS He. pose proof (E0_pos path P) as HE0.
  destruct (hdr1_ok path keys sbuf e P E0e He) as (EO & EH).
  unfold hdr1 in He. cbn [fh_end] in He. cbv zeta in He.
  set (kk := kkey path keys e) in *. set (e1 := e + k_nbytes kk) in *.
  set (ks := skey sbuf e1) in *. set (e2 := e1 + k_nbytes ks) in *.
  set (kf := fkey path e2) in *. set (e3 := e2 + k_nbytes kf) in *.
  pose proof (zlen_nonneg sbuf) as Zs. pose proof (zlen_nonneg (keys_buf keys)) as Zk.
  pose proof (key_len_pos _ _ _ names_ok_si) as Ls. fold si_keylen in Ls.
  pose proof (key_len_pos _ _ _ (names_ok_dir path P)) as Lk.
  pose proof (key_len_pos _ _ _ (names_ok_file path P)) as Lf. fold (path_keylen path) in Lf.
  assert (Nk : k_nbytes kk = key_len_for path [] (bs "TDirectory") false + zlen (keys_buf keys)) by reflexivity.
  assert (Ns : k_nbytes ks = si_keylen + zlen sbuf) by reflexivity.
  assert (Nf : k_nbytes kf = path_keylen path + zlen (seg_buf (e2 + (path_keylen path + 10)))) by reflexivity.
  pose proof (zlen_nonneg (seg_buf (e2 + (path_keylen path + 10)))) as Zf.
  assert (B3 : is_i32 (e2 + (path_keylen path + 10))).
  { destruct P as [_ P2]. unfold kStartBigFile in He. red. lia. }
  destruct (zlen_seg_buf _ B3) as (ZF & WF & _). rewrite ZF in Nf.
  unfold close. unfold fbind at 1, fgets at 1. change (f_dir (lay_file path keys sis log e)) with (d_set_keys (dir0 path) keys).
  unfold fbind at 1. rewrite save_keys_ok; try assumption; [|fold kk e1; lia].
  fold kk e1. unfold fbind at 1. unfold kStartBigFile in He.
  rewrite (write_dir_ok path keys e _ (log ++ rec_writes kk)); [|exact P|red; lia|fold kk; red; lia|reflexivity].
  unfold fbind at 1, fmodify at 1.
  match goal with |- (write_sinfos db ;;! _) ?x = _ =>
    change x with (fc1 path keys sis ((log ++ rec_writes kk) ++ [(100 + nbname path, dirb (dir1 path keys e))]) e e1) end.
  unfold fbind at 1. rewrite (write_sinfos_ok path keys sis _ e e1 sis' sbuf);
    [|lia|exact HD|exact HS|fold ks; unfold kStartBigFile; lia]. fold ks e2.
  unfold fbind at 1.
  match goal with |- context [fc2 path keys sis' ?l e e1 ?n e2] =>
    destruct (write_free_ok path keys sis' l e e1 n e2 P) as (_ & ->);
    [lia|unfold kStartBigFile; lia|] end.
  fold kf e3.
  unfold write_fhdr. unfold fbind at 1, fmodify at 1. unfold fbind at 1, fgets at 1.
  unfold f_set_hdr, h_set_nfree, fc3.
  cbn [f_io f_hdr f_dir f_spans f_sinfos f_id fh_version fh_begin fh_end fh_seekfree
         fh_nbfree fh_nfree fh_nbname fh_units fh_comp fh_seekinfo fh_nbinfo fh_uuid].
  rewrite (@zlen_def fseg). cbn [length]. change (to_i32 (Z.of_nat 1)) with 1.
  assert (EU : fhdr_units (mkHdr 63002 100 e3 e2 (k_nbytes kf) 1 (nbname path) 4 1 e1 (k_nbytes ks) (repeat 0 16))
             = hdr1 path keys sbuf e).
  { change (mkHdr 63002 100 e3 e2 (k_nbytes kf) 1 (nbname path) 4 1 e1 (k_nbytes ks) (repeat 0 16))
      with (hdr1 path keys sbuf e). unfold fhdr_units. now rewrite EH. }
  rewrite EU. change (fh_begin (hdr1 path keys sbuf e)) with 100.
  unfold fbind at 1, flift at 1. destruct (hdrb_ok _ EO) as (_ & HW & _). rewrite HW.
  unfold fbind, fwrite. cbn [f_io f_set_io]. unfold f_set_io. cbn [f_io f_hdr f_dir f_spans f_sinfos f_id].
  change (Z.to_nat 100) with 100%nat.
  unfold close_log. cbv zeta. fold kk e1 ks e2 kf. rewrite <- !app_assoc. reflexivity.
Qed.

(** ** Backwards: a successful [close] of a file that stays small met the conditions. *)
Lemma key_new_inv name title class objlen f f' k : 0 < objlen ->
  key_new name title class objlen f = (f', Ok k) ->
  f_io f' = f_io f /\ k_seek k = fh_end (f_hdr f) /\ k_keylen k = f_keylen name title class f /\
  k_objlen k = objlen.
Proof. clear db.
  intros Ho. unfold key_new. cbv zeta. intros H.
  apply fbind_inv in H as (f1 & ? & H1 & H). apply fgets_inv in H1 as [-> ->].
  apply fbind_inv in H as (f1 & ? & H1 & H). apply flift_inv in H1 as [-> H0].
  apply fbind_inv in H as (f1 & ? & H1 & H). apply fgets_inv in H1 as [-> ->].
  destruct (Z.ltb_spec 0 objlen) as [HH|HH]; [|lia].
  apply fbind_inv in H as (f1 & [] & H1 & H). apply set_end_inv in H1 as (H1 & H2 & H3 & H4).
  apply fbind_inv in H as (f2 & ? & H5 & H). apply fgets_inv in H5 as [-> ->].
  apply fbind_inv in H as (f2 & ? & H5 & H). apply fgets_inv in H5 as [-> ->].
  injection H as <- <-. repeat split. exact H1.
Qed.

(** Writing a record with something in it reaches the end of what it holds. *)
Lemma key_write_reach2 k f f' e kl : key_write k f = (f', Ok tt) -> k_buffer k <> [] ->
  k_seek k = e -> k_keylen k = kl -> 0 <= e + kl ->
  e + (kl + zlen (k_buffer k)) <= zlen (f_disk f').
Proof.
  intros HW HB I2 I3 He. apply key_write_inv in HW as (log' & h & W1 & W2 & ->).
  unfold f_disk. cbn [f_io f_set_io]. rewrite I2, I3.
  replace (log' ++ [(e, h); (e + kl, k_buffer k)]) with ((log' ++ [(e, h)]) ++ [(e + kl, k_buffer k)])
    by now rewrite <- app_assoc.
  rewrite disk_of_snoc. cbn [fst snd]. rewrite Z.add_assoc. now apply dwrite_reach.
Qed.

(** Writing a record whose header has the declared length reaches its end. *)
Lemma key_write_reach k f f' e kl : key_write k f = (f', Ok tt) ->
  names_ok (k_name k) (k_title k) (k_class k) -> k_rvers k = 4 -> beqb (k_class k) (bs "TBasket") = false ->
  kl = key_len_for (k_name k) (k_title k) (k_class k) false ->
  k_seek k = e -> k_keylen k = kl -> 0 <= e ->
  e + (kl + zlen (k_buffer k)) <= zlen (f_disk f').
Proof. clear db.
  intros HW N V HB Hkl I2 I3 He. pose proof (key_len_pos _ _ _ N) as HP. rewrite <- Hkl in HP.
  apply key_write_inv in HW as (log' & h & W1 & W2 & ->).
  destruct N as (N1 & N2 & N3 & N4).
  assert (LH : zlen h = kl).
  { erewrite (wlength_wrun _ (key_hdr_len k) 0 h); [|apply key_marshal_len; auto|exact W2].
    rewrite Hkl. unfold key_hdr_len, key_len_for.
    rewrite V, HB. change (1000 <? 4) with false. lia. }
  unfold f_disk. cbn [f_io f_set_io]. rewrite I2, I3. rewrite <- LH at 1 2.
  assert (h <> []) by (intros ->; rewrite (@zlen_nil Z) in LH; lia).
  pose proof (disk_two log' e h (k_buffer k) ltac:(lia) ltac:(assumption)). lia.
Qed.

Lemma keys_count keys : Forall key_good keys -> zlen keys <= zlen (concat (map khdr keys)).
Proof. clear db.
  induction 1 as [|k ks (K & _ & KL) H IH]; [reflexivity|]. cbn [map concat]. rewrite zlen_app, zlen_cons.
  pose proof (khdr_nonempty k K). destruct (khdr k) as [|z b]; [congruence|]. rewrite zlen_cons. pose proof (zlen_nonneg b). lia.
Qed.

Lemma save_keys_bwd path keys sis log e f1 d1 : path_ok path -> Forall key_good keys ->
  E0 path <= e <= kStartBigFile ->
  save_keys (d_set_keys (dir0 path) keys) (lay_file path keys sis log e) = (f1, Ok d1) ->
  zlen (f_disk f1) <= kStartBigFile ->
  zlen keys < 2 ^ 31 /\ e + k_nbytes (kkey path keys e) <= kStartBigFile.
Proof. clear db.
  intros P G He H HD. pose proof (E0_pos path P) as HE0.
  assert (SM : small (lay_file path keys sis log e) e) by (apply lay_small; [exact P|lia]).
  pose proof (keys_count keys G) as Hc. pose proof (zlen_nonneg keys) as Hz.
  unfold save_keys in H.
  apply fbind_inv in H as (f2 & ? & H1 & H). apply fgets_inv in H1 as [-> ->].
  rewrite (file_big_small _ e SM) in H. cbv zeta in H.
  cbn [d_keys d_set_keys] in H. rewrite sum_keylen in H by exact G. rewrite Z.add_0_r in H.
  apply fbind_inv in H as (f2 & nb & H1 & H). apply flift_inv in H1 as [-> H1].
  apply add_i32_inv in H1 as [-> H1]. rewrite Z.add_0_r in *.
  assert (B : zlen keys < 2 ^ 31) by (red in H1; lia). split; [exact B|].
  apply fbind_inv in H as (f2 & k & HK & H). change (d_name (d_set_keys (dir0 path) keys)) with path in HK.
  change (d_title (d_set_keys (dir0 path) keys)) with (@nil Z) in HK.
  apply key_new_inv in HK as (I1 & I2 & I3 & I4); [|lia].
  rewrite (f_keylen_small _ e) in I3 by exact SM.
  change (fh_end (f_hdr (lay_file path keys sis log e))) with e in I2.
  apply fbind_inv in H as (f3 & buf & H2 & H). apply flift_inv in H2 as [-> H2].
  rewrite (writes_wrun _ (keys_buf keys)) in H2.
  2: { unfold keys_buf. rewrite to_i32_id by (red; lia). eapply writes_bind; [apply writes_int|]. intros _.
       now apply writes_keys. }
  injection H2 as <-.
  apply fbind_inv in H as (f3 & [] & HW & H). injection H as -> _.
  unfold kkey. rewrite mk_key_nbytes.
  pose proof (key_len_pos _ _ _ (names_ok_dir path P)) as Lk.
  eapply key_write_reach2 in HW; cbn [k_set_buffer k_seek k_keylen k_buffer]; [|discriminate|exact I2|exact I3|lia].
  cbn [k_set_buffer k_buffer] in HW. lia.
Qed.

Lemma close_bwd path keys sis log e f' : path_ok path -> Forall key_good keys -> E0 path <= e <= kStartBigFile ->
  close db (lay_file path keys sis log e) = (f', Ok tt) -> zlen (f_disk f') <= kStartBigFile ->
  zlen keys < 2 ^ 31 /\ exists sis' sbuf, deep sis = Ok sis' /\ wrun si_keylen (sinfos_marshal sis') = Ok sbuf /\
    fh_end (hdr1 path keys sbuf e) <= kStartBigFile.
Proof.
  intros P G He H HD. pose proof (E0_pos path P) as HE0. unfold close in H.
  apply fbind_inv in H as (f1 & ? & H1 & H). apply fgets_inv in H1 as [-> ->].
  change (f_dir (lay_file path keys sis log e)) with (d_set_keys (dir0 path) keys) in H.
  apply fbind_inv in H as (f1 & d1 & H1 & H).
  assert (HD1 : zlen (f_disk f1) <= kStartBigFile).
  { eapply Z.le_trans; [|exact HD]. eapply mono_disk; [|exact H]. mono. }
  destruct (save_keys_bwd _ _ _ _ _ _ _ P G He H1 HD1) as (B1 & B2). split; [exact B1|].
  rewrite save_keys_ok in H1 by (assumption || lia). injection H1 as <- <-. clear HD1.
  set (kk := kkey path keys e) in *. set (e1 := e + k_nbytes kk) in *.
  assert (Nk : k_nbytes kk = key_len_for path [] (bs "TDirectory") false + zlen (keys_buf keys)) by reflexivity.
  pose proof (zlen_nonneg (keys_buf keys)) as Zk.
  pose proof (key_len_pos _ _ _ (names_ok_dir path P)) as Lk. unfold kStartBigFile in B2, He.
  apply fbind_inv in H as (f1 & d1 & H1 & H).
  rewrite (write_dir_ok path keys e _ (log ++ rec_writes kk)) in H1; [|exact P|red; lia|fold kk; red; lia|reflexivity].
  injection H1 as <- <-.
  apply fbind_inv in H as (f1 & [] & H1 & H). apply fmodify_inv in H1. subst f1.
  match type of H with (write_sinfos db ;;! _) ?x = _ =>
    change x with (fc1 path keys sis ((log ++ rec_writes kk) ++ [(100 + nbname path, dirb (dir1 path keys e))]) e e1) in H end.
  set (lg := (log ++ rec_writes kk) ++ _) in H.
  apply fbind_inv in H as (f2 & [] & HS & H).
  assert (HD2 : zlen (f_disk f2) <= kStartBigFile).
  { eapply Z.le_trans; [|exact HD]. eapply mono_disk; [|exact H]. mono. }
  (* class descriptions *)
  pose proof HS as HS0. unfold write_sinfos in HS.
  apply fbind_inv in HS as (f3 & [] & H1 & HS). apply find_deep_inv in H1 as (sis' & HDp & ->).
  change (f_sinfos (fc1 path keys sis lg e e1)) with sis in HDp.
  change (f_set_sinfos (fc1 path keys sis lg e e1) sis') with (fc1 path keys sis' lg e e1) in HS.
  apply fbind_inv in HS as (f3 & ? & H1 & HS). apply fgets_inv in H1 as [-> ->].
  apply fbind_inv in HS as (f3 & ? & H1 & HS). apply fgets_inv in H1 as [-> ->].
  change (negb (fh_seekinfo (f_hdr (fc1 path keys sis' lg e e1)) =? 0)) with false in HS. cbv iota zeta in HS.
  assert (S2 : small (fc1 path keys sis' lg e e1) e1) by (apply small_fc1; unfold kStartBigFile; lia).
  fold si_kname si_title in HS.
  apply fbind_inv in HS as (f3 & k0 & H1 & HS).
  destruct (key_new_0 _ e1 S2) as (k0' & EK & EK0). rewrite EK in H1. injection H1 as <- <-. rewrite EK0 in HS.
  apply fbind_inv in HS as (f3 & sbuf & H1 & HS). apply flift_inv in H1 as [-> HB].
  change (f_sinfos (fc1 path keys sis' lg e e1)) with sis' in HB.
  exists sis', sbuf. split; [exact HDp|]. split; [exact HB|].
  apply fbind_inv in HS as (f3 & k & H1 & HS). unfold key_from_buffer in H1.
  apply fbind_inv in H1 as (f4 & kl & H2 & H1). apply fgets_inv in H2 as [-> ->].
  rewrite (f_keylen_small _ e1) in H1 by exact S2. fold si_keylen in H1.
  apply key_from_inv in H1 as (I1 & I2 & I3 & I4 & I5 & I6 & I7 & I8).
  rewrite (file_big_small _ e1 S2) in I8. change (fh_end (f_hdr (fc1 path keys sis' lg e e1))) with e1 in I2.
  apply fbind_inv in HS as (f4 & [] & H1 & HS). apply fmodify_inv in H1. subst f4.
  set (ks := skey sbuf e1).
  assert (Ns : k_nbytes ks = si_keylen + zlen sbuf) by reflexivity.
  pose proof (zlen_nonneg sbuf) as Zs.
  pose proof (key_len_pos _ _ _ names_ok_si) as Ls. fold si_keylen in Ls.
  assert (B3 : e1 + k_nbytes ks <= kStartBigFile).
  { eapply (key_write_reach _ _ _ e1 si_keylen) in HS; rewrite ?I4, ?I5, ?I6, ?I7, ?I8; try reflexivity; try assumption; try lia.
    - rewrite I4 in HS. lia.
    - exact names_ok_si. }
  clear HS. rewrite (write_sinfos_ok path keys sis _ e e1 sis' sbuf) in HS0; [|lia|exact HDp|exact HB|exact B3].
  fold ks in HS0. set (e2 := e1 + k_nbytes ks) in *. injection HS0 as <-.
  (* free segments *)
  apply fbind_inv in H as (f5 & [] & HF & H).
  assert (HD3 : zlen (f_disk f5) <= kStartBigFile).
  { eapply Z.le_trans; [|exact HD]. eapply mono_disk; [|exact H]. mono. }
  unfold write_free in HF.
  match type of HF with _ ?x = _ => set (g := x) in HF end.
  assert (S3 : small g e2) by (apply small_fc2; unfold kStartBigFile in *; lia).
  apply fbind_inv in HF as (f6 & ? & H1 & HF). apply fgets_inv in H1 as [-> ->].
  change (negb (fh_seekfree (f_hdr g) =? 0)) with false in HF. cbv iota in HF.
  apply fbind_inv in HF as (f6 & ? & H1 & HF). apply fgets_inv in H1 as [-> ->].
  apply fbind_inv in HF as (f6 & ? & H1 & HF). apply fgets_inv in H1 as [-> ->].
  apply fbind_inv in HF as (f6 & nb & H1 & HF). apply flift_inv in H1 as [-> H1].
  change (add_i32 (sum_list (map seg_size (f_spans g))) 0) with (@Ok Z 10) in H1. injection H1 as <-.
  change (d_name (f_dir g)) with path in HF. change (d_title (f_dir g)) with (@nil Z) in HF.
  apply fbind_inv in HF as (f6 & kf & HK & HF).
  apply key_new_inv in HK as (J1 & J2 & J3 & J4); [|lia].
  rewrite (f_keylen_small _ e2) in J3 by exact S3.
  change (fh_end (f_hdr g)) with e2 in J2. fold (path_keylen path) in J3.
  destruct (k_seek kf =? 0); [discriminate|].
  apply fbind_inv in HF as (f7 & ? & H1 & HF). apply fgets_inv in H1 as [-> ->].
  apply fbind_inv in HF as (f7 & fb & H1 & HF). apply flift_inv in H1 as [-> _].
  destruct (negb (zlen fb =? k_objlen kf)) eqn:EN; [discriminate|]. rewrite J4 in EN.
  assert (EF : zlen fb = 10) by lia.
  apply fbind_inv in HF as (f7 & [] & H1 & HF). apply fmodify_inv in H1. subst f7.
  pose proof (key_len_pos _ _ _ (names_ok_file path P)) as Lf. fold (path_keylen path) in Lf.
  unfold kStartBigFile in B3.
  assert (B4 : e2 + (path_keylen path + 10) <= kStartBigFile).
  { eapply key_write_reach2 in HF; cbn [k_set_buffer k_seek k_keylen k_buffer]; [| |exact J2|exact J3|lia].
    - cbn [k_set_buffer k_buffer] in HF. lia.
    - intros ->. rewrite (@zlen_nil Z) in EF. lia. }
  destruct (write_free_ok path keys sis' [] e e1 0 e2 P) as (Nf & _); [lia|exact B4|].
  unfold hdr1. cbn [fh_end]. cbv zeta. fold kk e1 ks e2. rewrite Nf. exact B4.
Qed.
End DB.
